(** What destinations and actions are, by the tables of the standard. *)
From Coq Require Import String QArith.
From Verif Require Import Base TokModel.
Local Open Scope Z_scope.

(** The number that an object is *)
Inductive number_is : obj -> Q -> Prop :=
| NI n : number_is (ONum n) (inject_Z n)
| NR m k q : (q == inject_Z m / inject_Z (10 ^ Z.of_nat k))%Q -> number_is (OReal m k) q.
(** The number m / 10^k *)
Definition val (a : Z * nat) : Q := (inject_Z (fst a) / inject_Z (10 ^ Z.of_nat (snd a)))%Q.
(** A parameter: a number, or null for "as it is" *)
Inductive param_is : obj -> option Q -> Prop :=
| PNull : param_is ONull None
| PNum o q : number_is o q -> param_is o (Some q).
(** Table 151: the views of a page *)
Inductive view :=
| VXYZ (left top zoom : option Q) | VFit | VFitH (top : option Q) | VFitV (left : option Q)
| VFitR (left bottom right top : Q) | VFitB | VFitBH (top : option Q) | VFitBV (left : option Q).
Inductive view_is : list obj -> view -> Prop :=
| IXYZ a b c l t z : param_is a l -> param_is b t -> param_is c z -> view_is [OName (bs "XYZ"); a; b; c] (VXYZ l t z)
| IFit : view_is [OName (bs "Fit")] VFit
| IFitH a t : param_is a t -> view_is [OName (bs "FitH"); a] (VFitH t)
| IFitV a l : param_is a l -> view_is [OName (bs "FitV"); a] (VFitV l)
| IFitR a b c d l m r t : number_is a l -> number_is b m -> number_is c r -> number_is d t -> view_is [OName (bs "FitR"); a; b; c; d] (VFitR l m r t)
| IFitB : view_is [OName (bs "FitB")] VFitB
| IFitBH a t : param_is a t -> view_is [OName (bs "FitBH"); a] (VFitBH t)
| IFitBV a l : param_is a l -> view_is [OName (bs "FitBV"); a] (VFitBV l).
(** An explicit destination in the same document: a page, and a view of it *)
Inductive destination : list obj -> Z * Z -> view -> Prop :=
| DView n g arr v : view_is arr v -> destination (ORef n g :: arr) (n, g) v.
(** The left and the top edge and the zoom that a view sets, if it has such a parameter *)
Definition left_of (v : view) : option (option Q) :=
  match v with VXYZ l _ _ => Some l | VFitV l | VFitBV l => Some l | VFitR l _ _ _ => Some (Some l) | _ => None end.
Definition top_of (v : view) : option (option Q) :=
  match v with VXYZ _ t _ => Some t | VFitH t | VFitBH t => Some t | VFitR _ _ _ t => Some (Some t) | _ => None end.
Definition zoom_of (v : view) : option (option Q) := match v with VXYZ _ _ z => Some z | _ => None end.
(** The one parameter of the views that have one *)
Definition value_of_view (v : view) : option (option Q) :=
  match v with VFitH q | VFitV q | VFitBH q | VFitBV q => Some q | _ => None end.

(** Table 198: the names of the kinds of actions, numbered as in PdfAction.h *)
Definition kinds_of_actions : list (Z * string) :=
  [(1, "GoTo"); (2, "GoToR"); (3, "GoToE"); (4, "Launch"); (5, "Thread"); (6, "URI"); (7, "Sound"); (8, "Movie"); (9, "Hide"); (10, "Named");
   (11, "SubmitForm"); (12, "ResetForm"); (13, "ImportData"); (14, "JavaScript"); (15, "SetOCGState"); (16, "Rendition"); (17, "Trans");
   (18, "GoTo3DView"); (19, "RichMediaExecute")]%string.

(** The objects of a document; an entry of a dictionary, where a reference stands for the object it names *)
Definition document : Type := Z * Z -> option obj.
Inductive value_is (h : document) : obj -> obj -> Prop :=
| VDirect o : (forall n g, o <> ORef n g) -> value_is h o o
| VIndirect n g o : h (n, g) = Some o -> value_is h (ORef n g) o.
Definition entry_is (h : document) (d : list (list Z * obj)) (k : list Z) (o : obj) : Prop :=
  exists e, dict_get k d = Some e /\ value_is h e o.
Definition absent (d : list (list Z * obj)) (k : list Z) : Prop := dict_get k d = None.
(** An outline item or a link shall not have both a destination and an action (tables 153 and 173) *)
Definition exclusive (h : document) (r : Z * Z) : Prop :=
  forall d, h r = Some (ODict d) -> absent d (bs "Dest") \/ absent d (bs "A").
(** 12.3.2.3: the arrays that a value of Dest stands for. A string is looked up among the names of the document, a name in the
    dictionary of the catalog; what is found is an array, or a dictionary with the array under D *)
Inductive found_dest (h : document) : obj -> list obj -> Prop :=
| FArr arr : found_dest h (OArr arr) arr
| FDict d arr : entry_is h d (bs "D") (OArr arr) -> found_dest h (ODict d) arr.
Inductive named_dest (h : document) (cat : list (list Z * obj)) (names : list Z -> obj -> Prop) : obj -> list obj -> Prop :=
| NArr arr : named_dest h cat names (OArr arr) arr
| NStr x s o arr : names s o -> found_dest h o arr -> named_dest h cat names (OStr x s) arr
| NName n d o arr : entry_is h cat (bs "Dests") (ODict d) -> entry_is h d n o -> found_dest h o arr -> named_dest h cat names (OName n) arr.
