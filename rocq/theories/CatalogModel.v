(** The settings of the catalog and the developer extensions: src/pdfmm/base/PdfCatalog.cpp and PdfMemDocument.cpp. The catalog is its dictionary,
    and the other objects are those of the document; a catalog that is part of its own settings is left out. *)
From Coq Require Import String.
From Verif Require Import Base TokModel OwnModel PageModel UtilModel.
Local Open Scope Z_scope.

Record cat := mk_cat { others : heap; root : list (list Z * obj) }.
Definition with_root (x : cat) (d : list (list Z * obj)) : cat := mk_cat (others x) d.

(** FindKey and GetDictionary: the dictionary under a key, directly or through a reference *)
Definition sub_dict (k : list Z) (x : cat) : res (option (list (list Z * obj))) :=
  match dict_find (others x) k (root x) with
  | None => Ok None
  | Some (ODict d) => Ok (Some d)
  | Some _ => Err EInvalidDataType
  end.
(** The same dictionary is changed where it is *)
Definition put_sub (k : list Z) (d : list (list Z * obj)) (x : cat) : cat :=
  match get_key k (root x) with
  | Some (ORef n g) => mk_cat (set (n, g) (Some (ODict d)) (others x)) (root x)
  | _ => with_root x (add_key k (ODict d) (root x))
  end.

(** PdfDeclarations.h 460-469 PdfPageMode, 478-488 PdfPageLayout *)
Inductive mode := DontCare | UseNone | UseThumbs | UseBookmarks | FullScreen | UseOC | UseAttachments.
Inductive layout := Ignore | Default | SinglePage | OneColumn | TwoColumnLeft | TwoColumnRight | TwoPageLeft | TwoPageRight.

(** PdfCatalog.cpp 102-130 GetPageMode *)
Definition get_mode (x : cat) : res mode :=
  match dict_find (others x) (bs "PageMode") (root x) with
  | None => Ok UseNone
  | Some (OName n) =>
    if beq n (bs "UseNone") then Ok UseNone
    else if beq n (bs "UseThumbs") then Ok UseThumbs
    else if beq n (bs "UseOutlines") then Ok UseBookmarks
    else if beq n (bs "FullScreen") then Ok FullScreen
    else if beq n (bs "UseOC") then Ok UseOC
    else if beq n (bs "UseAttachments") then Ok UseAttachments
    else Err EInvalidName
  | Some _ => Err EInvalidDataType
  end.
(** 132-163 SetPageMode *)
Definition set_name (k n : list Z) (x : cat) : cat := with_root x (add_key k (OName n) (root x)).
Definition set_mode (m : mode) (x : cat) : cat :=
  match m with
  | DontCare => x
  | UseNone => set_name (bs "PageMode") (bs "UseNone") x
  | UseThumbs => set_name (bs "PageMode") (bs "UseThumbs") x
  | UseBookmarks => set_name (bs "PageMode") (bs "UseOutlines") x
  | FullScreen => set_name (bs "PageMode") (bs "FullScreen") x
  | UseOC => set_name (bs "PageMode") (bs "UseOC") x
  | UseAttachments => set_name (bs "PageMode") (bs "UseAttachments") x
  end.
(** 177-193 setViewerPreference *)
Definition set_pref (w : list Z) (v : obj) (x : cat) : res cat :=
  do o <- sub_dict (bs "ViewerPreferences") x;
  match o with
  | None => Ok (with_root x (add_key (bs "ViewerPreferences") (ODict (add_key w v [])) (root x)))
  | Some d => Ok (put_sub (bs "ViewerPreferences") (add_key w v d) x)
  end.
(** 165-175 SetUseFullScreen; PdfDictionary.cpp 263-270 MustFindKey *)
Definition set_full (x : cat) : res cat :=
  do m <- get_mode x;
  do x <- match m with
          | DontCare => Ok x
          | _ => match dict_find (others x) (bs "PageMode") (root x) with
                 | None => Err ENoObject
                 | Some o => set_pref (bs "NonFullScreenPageMode") o x
                 end
          end;
  Ok (set_mode FullScreen x).
(** 195-233 SetHideToolbar to SetPrintScaling, 247-250 SetBindingDirection *)
Inductive pref := HideToolbar | HideMenubar | HideWindowUI | FitWindow | CenterWindow | DisplayDocTitle | PrintScaling (n : list Z) | Direction (n : list Z).
Definition set_viewer (p : pref) (x : cat) : res cat :=
  match p with
  | HideToolbar => set_pref (bs "HideToolbar") (OBool true) x
  | HideMenubar => set_pref (bs "HideMenubar") (OBool true) x
  | HideWindowUI => set_pref (bs "HideWindowUI") (OBool true) x
  | FitWindow => set_pref (bs "FitWindow") (OBool true) x
  | CenterWindow => set_pref (bs "CenterWindow") (OBool true) x
  | DisplayDocTitle => set_pref (bs "DisplayDocTitle") (OBool true) x
  | PrintScaling n => set_pref (bs "PrintScaling") (OName n) x
  | Direction n => set_pref (bs "Direction") (OName n) x
  end.
(** 235-240 SetBaseURI, 242-245 SetLanguage; strings are their bytes *)
Definition set_base (s : list Z) (x : cat) : cat := with_root x (add_key (bs "URI") (ODict (add_key (bs "Base") (OStr false s) [])) (root x)).
Definition set_lang (s : list Z) (x : cat) : cat := with_root x (add_key (bs "Lang") (OStr false s) (root x)).
(** 252-283 SetPageLayout *)
Definition set_layout (l : layout) (x : cat) : cat :=
  match l with
  | Ignore => x
  | Default => with_root x (snd (remove_key (bs "PageLayout") (root x)))
  | SinglePage => set_name (bs "PageLayout") (bs "SinglePage") x
  | OneColumn => set_name (bs "PageLayout") (bs "OneColumn") x
  | TwoColumnLeft => set_name (bs "PageLayout") (bs "TwoColumnLeft") x
  | TwoColumnRight => set_name (bs "PageLayout") (bs "TwoColumnRight") x
  | TwoPageLeft => set_name (bs "PageLayout") (bs "TwoPageLeft") x
  | TwoPageRight => set_name (bs "PageLayout") (bs "TwoPageRight") x
  end.

(** ** PdfMemDocument.cpp: extensions *)

(** 177-192 HasPdfExtension *)
Definition has_ext (ns : list Z) (lev : Z) (x : cat) : res bool :=
  do e <- sub_dict (bs "Extensions") x;
  match e with
  | None => Ok false
  | Some e =>
    match dict_find (others x) ns e with
    | None => Ok false
    | Some (ODict d) => match dict_find (others x) (bs "ExtensionLevel") d with Some (ONum n) => Ok (n =? lev) | _ => Ok false end
    | Some _ => Err EInvalidDataType
    end
  end.
(** 152-175 AddPdfExtension; [v] is the version of the document *)
Definition add_ext (v : version) (ns : list Z) (lev : Z) (x : cat) : res cat :=
  do h <- has_ext ns lev x;
  if (h : bool) then Ok x
  else
    do n <- version_name v;
    let new := add_key (bs "ExtensionLevel") (ONum lev) (add_key (bs "BaseVersion") (OName n) []) in
    match dict_find (others x) (bs "Extensions") (root x) with
    | Some (ODict e) => Ok (put_sub (bs "Extensions") (add_key ns (ODict new) e) x)
    | _ => Ok (with_root x (add_key (bs "Extensions") (ODict (add_key ns (ODict new) [])) (root x)))
    end.
(** 198-220 GetPdfExtensions *)
Fixpoint list_exts (look : heap) (e : list (list Z * obj)) : res (list (list Z * version * Z)) :=
  match e with
  | [] => Ok []
  | (ns, ODict d) :: t =>
    do r <- list_exts look t;
    match dict_find look (bs "BaseVersion") d, dict_find look (bs "ExtensionLevel") d with
    | Some (OName n), Some (ONum l) => match get_version n with VUnknown => Ok r | v => Ok ((ns, v, l) :: r) end
    | _, _ => Ok r
    end
  | _ => Err EInvalidDataType
  end.
Definition get_exts (x : cat) : res (list (list Z * version * Z)) :=
  do e <- sub_dict (bs "Extensions") x;
  match e with None => Ok [] | Some e => list_exts (others x) e end.
(** 226-230 RemovePdfExtension *)
Definition remove_ext (ns : list Z) (lev : Z) (x : cat) : res cat :=
  do h <- has_ext ns lev x;
  if (h : bool)
  then do e <- sub_dict (bs "Extensions") x;
       match e with None => UB | Some e => Ok (put_sub (bs "Extensions") (snd (remove_key (bs "ns") e)) x) end
  else Ok x.
