(** XObjects: src/pdfmm/base/PdfXObject.cpp, PdfXObjectForm.cpp:15-33, 92-117, PdfImage.cpp:46-49, 172-177, PdfXObjectPostScript.cpp;
    extended graphics states: src/pdfmm/base/PdfExtGState.cpp. Doubles are decimal fractions. An object is in a document, so that
    no InvalidHandle is raised (PdfElement.cpp:19-34). *)
From Coq Require Import String QArith.
From Verif Require Import Base TokModel WriteModel OwnModel ContentsModel RectModel LinkModel AnnotModel BoxModel.
Local Open Scope Z_scope.
Local Notation dict := (list (list Z * obj)) (only parsing).

(** ** PdfXObject.cpp *)
(** 174-187 toString *)
Definition kind_name (k : xkind) : list Z := match k with XForm => bs "Form" | XImage => bs "Image" | XPostScript => bs "PS" end.
(** 189-199 fromString; [None] is Unknown *)
Definition kind_of_name (s : list Z) : option xkind :=
  if beq s (bs "Form") then Some XForm else if beq s (bs "Image") then Some XImage else if beq s (bs "PS") then Some XPostScript else None.
(** 111-120 getPdfXObjectType *)
Definition kind_of (look : Z * Z -> option obj) (d : dict) : option xkind := match dict_find look (bs "Subtype") d with Some (OName s) => kind_of_name s | _ => None end.
(** 159-172 initIdentifiers, of an object with the number [n]; an empty prefix is XOb *)
Definition identifier (prefix : list Z) (n : Z) : list Z := (match prefix with [] => bs "XOb" | _ => prefix end) ++ WriteModel.dec n.
(** The members of the three classes: the kind and the identifier; the rectangle of a form, which is empty without BBox; the size of an image *)
Record xobject := mk_xobject { x_kind : xkind; x_name : list Z; x_rect : rect; x_w : Z; x_h : Z }.
Definition no_rect : rect := mk_rect 0 0 0 0.
(** PdfImage.cpp 172-177: static_cast to unsigned of a number; MustFindKey (PdfDictionary.cpp 263-279), GetNumber (PdfVariant.cpp 546-565) *)
Definition size_entry (look : Z * Z -> option obj) (k : list Z) (d : dict) : res Z :=
  match dict_find look k d with None => Err ENoObject | Some (ONum z) => Ok (u32 z) | Some _ => Err EInvalidDataType end.
Definition open_image (look : Z * Z -> option obj) (n : Z) (d : dict) : res xobject :=
  do w <- size_entry look (bs "Width") d; do h <- size_entry look (bs "Height") d; Ok (mk_xobject XImage (identifier [] n) no_rect w h).
(** PdfXObjectForm.cpp 22-33; PdfResources.cpp 16-17 *)
Definition open_form (look : Z * Z -> option obj) (n : Z) (d : dict) : res xobject :=
  do r <- (match get_key (bs "BBox") d with
           | None => Ok no_rect
           | Some _ => match dict_find look (bs "BBox") d with None => Err ENoObject | Some (OArr l) => box_array l | Some _ => Err EInvalidDataType end
           end);
  match dict_find look (bs "Resources") d with
  | None | Some (ODict _) => Ok (mk_xobject XForm (identifier [] n) r 0 0)
  | Some _ => Err EInvalidDataType
  end.
(** 65-109 tryCreateFromObject of the object [o] with the number [n]; [want] is the kind that is asked for. [None]: it returns false. *)
Definition same_kind (a b : xkind) : bool := match a, b with XForm, XForm | XImage, XImage | XPostScript, XPostScript => true | _, _ => false end.
Definition try_create (look : Z * Z -> option obj) (want : option xkind) (n : Z) (o : obj) : res (option xobject) :=
  match o with
  | ODict d =>
    match get_key (bs "Type") d with
    | Some (OName t) =>
      if negb (beq t (bs "XObject")) then Ok None else
      match kind_of look d with
      | None => Ok None
      | Some k =>
        if match want with Some q => negb (same_kind k q) | None => false end then Ok None else
        match k with
        | XForm => do x <- open_form look n d; Ok (Some x)
        | XImage => do x <- open_image look n d; Ok (Some x)
        | XPostScript => Ok (Some (mk_xobject XPostScript (identifier [] n) no_rect 0 0))
        end
      end
    | _ => Ok None
    end
  | _ => Ok None
  end.
(** 26-31, PdfElement.cpp 41-46, PdfIndirectObjectList.cpp CreateDictionaryObject: the entries of a new XObject *)
Definition new_xobject (k : xkind) : dict := dict_add (bs "Subtype") (OName (kind_name k)) (dict_add (bs "Type") (OName (bs "XObject")) []).
(** PdfImage.cpp 46-49 *)
Definition new_image : dict := new_xobject XImage.
(** PdfXObjectForm.cpp 16-20, 92-117 initXObject *)
Definition new_form (r : drect) : dict :=
  dict_add (bs "Matrix") (OArr [ONum 1; ONum 0; ONum 0; ONum 1; ONum 0; ONum 0])
    (dict_add (bs "FormType") (ONum 1) (dict_add (bs "BBox") (OArr (rect_array r)) (new_xobject XForm))).
(** 122-130 GetMatrix; PdfMath.cpp 31-34 FromArray, PdfArray.cpp 245-251, 322-325. The order in which the six numbers are read is open: an array
    of fewer is ValueOutOfRange here, also if one of them is no number. *)
Definition get_matrix (d : dict) : res (list Q) :=
  match get_key (bs "Matrix") d with
  | None => Ok (map inject_Z [1; 0; 0; 1; 0; 0])
  | Some (OArr l) => if Nat.ltb (length l) 6 then Err EValueOutOfRange else reals (firstn 6 l)
  | Some _ => Err EInvalidDataType
  end.
(** 132-143 SetMatrix *)
Definition set_matrix (m : dec * dec * dec * dec * dec * dec) (d : dict) : dict :=
  let '(a, b, c, e, f, g) := m in dict_add (bs "Matrix") (OArr (map real [a; b; c; e; f; g])) d.

(** ** PdfExtGState.cpp *)
(** The functions of a graphics state: 35-85 *)
Inductive gcall := GFillOpacity (q : dec) | GStrokeOpacity (q : dec) | GBlend (n : list Z) | GOverprint (b : bool) | GFillOverprint (b : bool)
| GStrokeOverprint (b : bool) | GNonZero (b : bool) | GIntent (n : list Z) | GFrequency (q : dec).
(** 18-29; the identifier *)
Definition new_gs : dict := dict_add (bs "Type") (OName (bs "ExtGState")) [].
Definition gs_identifier (n : Z) : list Z := bs "ExtGS" ++ WriteModel.dec n.
Definition gs_step (c : gcall) (d : dict) : dict :=
  match c with
  | GFillOpacity q => dict_add (bs "ca") (real q) d
  | GStrokeOpacity q => dict_add (bs "CA") (real q) d
  | GBlend n => dict_add (bs "BM") (OName n) d
  | GOverprint b => dict_add (bs "OP") (OBool b) d
  | GFillOverprint b => dict_add (bs "op") (OBool b) d
  | GStrokeOverprint b => dict_add (bs "OP") (OBool b) d
  | GNonZero b => dict_add (bs "OPM") (ONum (if b then 1 else 0)) d
  | GIntent n => dict_add (bs "RI") (OName n) d
  | GFrequency q => dict_add (bs "HT") (ODict (dict_add (bs "SpotFunction") (OName (bs "SimpleDot")) (dict_add (bs "Angle") (OReal 45 0)
      (dict_add (bs "Frequency") (real q) (dict_add (bs "HalftoneType") (ONum 1) []))))) d
  end.
Fixpoint gs_run (cs : list gcall) (d : dict) : dict := match cs with [] => d | c :: t => gs_run t (gs_step c d) end.
