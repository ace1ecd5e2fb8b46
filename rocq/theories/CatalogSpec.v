(** What the settings of a catalog and the developer extensions are, and what calls mean for them *)
From Coq Require Import String Sorted.
From Verif Require Import Base TokModel PageModel UtilModel CatalogModel.
Local Open Scope Z_scope.

Definition ordered (d : list (list Z * obj)) : Prop := Sorted.StronglySorted (fun a b => bytes_lt (fst a) (fst b) = true) d.
Definition direct (o : obj) : Prop := forall n g, o <> ORef n g.
(** A dictionary has a value under a key, directly or through a reference *)
Definition stands (look : heap) (d : list (list Z * obj)) (k : list Z) (o : obj) : Prop :=
  (In (k, o) d /\ direct o) \/ exists n g, In (k, ORef n g) d /\ look (n, g) = Some o.

(** ** Settings *)

(** ISO 32000-1 table 28, 7.7.2 *)
Definition mode_names : list (mode * list Z) :=
  [(UseNone, bs "UseNone"); (UseBookmarks, bs "UseOutlines"); (UseThumbs, bs "UseThumbs"); (FullScreen, bs "FullScreen"); (UseOC, bs "UseOC");
   (UseAttachments, bs "UseAttachments")].
Definition layout_names : list (layout * list Z) :=
  [(SinglePage, bs "SinglePage"); (OneColumn, bs "OneColumn"); (TwoColumnLeft, bs "TwoColumnLeft"); (TwoColumnRight, bs "TwoColumnRight");
   (TwoPageLeft, bs "TwoPageLeft"); (TwoPageRight, bs "TwoPageRight")].
(** The entries of the catalog other than ViewerPreferences, and those of the viewer preferences *)
Record settings := mk_settings { entries : list Z -> option obj; prefs : list Z -> option obj }.
Definition has (x : cat) (a : settings) : Prop :=
  (forall k o, k <> bs "ViewerPreferences" -> entries a k = Some o <-> stands (others x) (root x) k o) /\
  (forall k o, prefs a k = Some o <-> exists d, stands (others x) (root x) (bs "ViewerPreferences") (ODict d) /\ In (k, o) d).
(** The viewer preferences, if there are any, are a dictionary of which nothing else in the catalog is a reference *)
Definition fits (x : cat) : Prop :=
  ordered (root x) /\
  (forall o, stands (others x) (root x) (bs "ViewerPreferences") o -> exists d, o = ODict d /\ ordered d) /\
  (forall k n g, In (bs "ViewerPreferences", ORef n g) (root x) -> In (k, ORef n g) (root x) -> k = bs "ViewerPreferences").

Inductive call := SetMode (m : mode) | SetLayout (l : layout) | SetViewer (p : pref) | SetFull | SetBase (s : list Z) | SetLang (s : list Z) | GetMode.
Definition now (f : list Z -> option obj) (k : list Z) (o : option obj) : list Z -> option obj := fun q => if beq q k then o else f q.
Definition entry (k : list Z) (o : option obj) (a : settings) : settings := mk_settings (now (entries a) k o) (prefs a).
Definition viewer (k : list Z) (o : option obj) (a : settings) : settings := mk_settings (entries a) (now (prefs a) k o).
Definition meant (c : call) (a : settings) : settings :=
  match c with
  | SetMode DontCare => a
  | SetMode UseNone => entry (bs "PageMode") (Some (OName (bs "UseNone"))) a
  | SetMode UseThumbs => entry (bs "PageMode") (Some (OName (bs "UseThumbs"))) a
  | SetMode UseBookmarks => entry (bs "PageMode") (Some (OName (bs "UseOutlines"))) a
  | SetMode FullScreen => entry (bs "PageMode") (Some (OName (bs "FullScreen"))) a
  | SetMode UseOC => entry (bs "PageMode") (Some (OName (bs "UseOC"))) a
  | SetMode UseAttachments => entry (bs "PageMode") (Some (OName (bs "UseAttachments"))) a
  | SetLayout Ignore => a
  | SetLayout Default => entry (bs "PageLayout") None a
  | SetLayout SinglePage => entry (bs "PageLayout") (Some (OName (bs "SinglePage"))) a
  | SetLayout OneColumn => entry (bs "PageLayout") (Some (OName (bs "OneColumn"))) a
  | SetLayout TwoColumnLeft => entry (bs "PageLayout") (Some (OName (bs "TwoColumnLeft"))) a
  | SetLayout TwoColumnRight => entry (bs "PageLayout") (Some (OName (bs "TwoColumnRight"))) a
  | SetLayout TwoPageLeft => entry (bs "PageLayout") (Some (OName (bs "TwoPageLeft"))) a
  | SetLayout TwoPageRight => entry (bs "PageLayout") (Some (OName (bs "TwoPageRight"))) a
  | SetViewer HideToolbar => viewer (bs "HideToolbar") (Some (OBool true)) a
  | SetViewer HideMenubar => viewer (bs "HideMenubar") (Some (OBool true)) a
  | SetViewer HideWindowUI => viewer (bs "HideWindowUI") (Some (OBool true)) a
  | SetViewer FitWindow => viewer (bs "FitWindow") (Some (OBool true)) a
  | SetViewer CenterWindow => viewer (bs "CenterWindow") (Some (OBool true)) a
  | SetViewer DisplayDocTitle => viewer (bs "DisplayDocTitle") (Some (OBool true)) a
  | SetViewer (PrintScaling n) => viewer (bs "PrintScaling") (Some (OName n)) a
  | SetViewer (Direction n) => viewer (bs "Direction") (Some (OName n)) a
  | SetFull => entry (bs "PageMode") (Some (OName (bs "FullScreen"))) (viewer (bs "NonFullScreenPageMode") (entries a (bs "PageMode")) a)
  | SetBase s => entry (bs "URI") (Some (ODict [(bs "Base", OStr false s)])) a
  | SetLang s => entry (bs "Lang") (Some (OStr false s)) a
  | GetMode => a
  end.
(** What calls need, and what they answer *)
Definition call_ok (c : call) (a : settings) : Prop :=
  match c with
  | SetFull => exists m n, In (m, n) mode_names /\ entries a (bs "PageMode") = Some (OName n)
  | GetMode => entries a (bs "PageMode") = None \/ exists m n, In (m, n) mode_names /\ entries a (bs "PageMode") = Some (OName n)
  | _ => True
  end.
Definition answers (c : call) (a : settings) (r : option mode) : Prop :=
  match c with
  | GetMode => exists m, r = Some m /\ ((entries a (bs "PageMode") = None /\ m = UseNone) \/ exists n, In (m, n) mode_names /\ entries a (bs "PageMode") = Some (OName n))
  | _ => r = None
  end.
Fixpoint calls_ok (l : list call) (a : settings) : Prop := match l with [] => True | c :: t => call_ok c a /\ calls_ok t (meant c a) end.
Fixpoint after (l : list call) (a : settings) : settings := match l with [] => a | c :: t => after t (meant c a) end.
Fixpoint answered (l : list call) (a : settings) (r : list (option mode)) : Prop :=
  match l, r with
  | [], [] => True
  | c :: t, r :: rs => answers c a r /\ answered t (meant c a) rs
  | _, _ => False
  end.
(** The calls of the model *)
Definition step (c : call) (x : cat) : res (cat * option mode) :=
  match c with
  | SetMode m => Ok (set_mode m x, None)
  | SetLayout l => Ok (set_layout l x, None)
  | SetViewer p => do x <- set_viewer p x; Ok (x, None)
  | SetFull => do x <- set_full x; Ok (x, None)
  | SetBase s => Ok (set_base s x, None)
  | SetLang s => Ok (set_lang s x, None)
  | GetMode => do m <- get_mode x; Ok (x, Some m)
  end.
Fixpoint play (l : list call) (x : cat) : res (cat * list (option mode)) :=
  match l with
  | [] => Ok (x, [])
  | c :: t => do (x, r) <- step c x; do (x, rs) <- play t x; Ok (x, r :: rs)
  end.

(** ** Extensions *)

(** ISO 32000-1 tables 28 and 49, 7.12: the extensions of a document *)
Definition level_of (x : cat) (ns : list Z) (l : Z) : Prop :=
  exists e d, stands (others x) (root x) (bs "Extensions") (ODict e) /\ In (ns, ODict d) e /\ stands (others x) d (bs "ExtensionLevel") (ONum l).
Definition declares (x : cat) (ns : list Z) (v : version) (l : Z) : Prop :=
  exists e d n, stands (others x) (root x) (bs "Extensions") (ODict e) /\ In (ns, ODict d) e /\
    stands (others x) d (bs "ExtensionLevel") (ONum l) /\ stands (others x) d (bs "BaseVersion") (OName n) /\
    In (n, v) [(bs "1.0", V10); (bs "1.1", V11); (bs "1.2", V12); (bs "1.3", V13); (bs "1.4", V14); (bs "1.5", V15); (bs "1.6", V16); (bs "1.7", V17); (bs "2.0", V20)].
(** The extensions, if there are any, are a dictionary of dictionaries. All are direct objects, but the levels and versions may be references *)
Definition proper (x : cat) : Prop :=
  ordered (root x) /\
  forall o, stands (others x) (root x) (bs "Extensions") o -> exists e, o = ODict e /\ ordered e /\ forall ns v, In (ns, v) e -> exists d, v = ODict d /\ ordered d.
