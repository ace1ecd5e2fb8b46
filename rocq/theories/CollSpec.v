(** Vocabulary of the properties of indexed collections. *)
From Coq Require Import String.
From Verif Require Import Base TokModel ListModel.
Local Open Scope Z_scope.

(** Requests to a collection, and what they give: a number, an item by its reference, or nothing *)
Inductive request := RCount | RAt (i : nat) | RGet (r : ref) | RRemoveAt (i : nat) | RRemove (r : ref) | RAdd (r : ref).
Inductive answer := AOut (n : Z) | AItem (r : ref) | ADone | ARaise (e : errc).
(** A collection as a list of references: the answer and the list afterwards *)
Inductive behaves : list ref -> request -> answer -> list ref -> Prop :=
| be_count l : behaves l RCount (AOut (Z.of_nat (length l))) l
| be_at a r b : behaves (a ++ r :: b) (RAt (length a)) (AItem r) (a ++ r :: b)
| be_at_out l i : (length l <= i)%nat -> behaves l (RAt i) (ARaise EValueOutOfRange) l
| be_get l r : In r l -> behaves l (RGet r) (AItem r) l
| be_get_none l r : ~ In r l -> behaves l (RGet r) (ARaise EInternalLogic) l
| be_cut a r b : behaves (a ++ r :: b) (RRemoveAt (length a)) ADone (a ++ b)
| be_cut_out l i : (length l <= i)%nat -> behaves l (RRemoveAt i) (ARaise EValueOutOfRange) l
| be_remove a r b : behaves (a ++ r :: b) (RRemove r) ADone (a ++ b)
| be_remove_none l r : ~ In r l -> behaves l (RRemove r) ADone l
| be_add l r : behaves l (RAdd r) ADone (l ++ [r]).
(** A history of requests with their answers; only new references are added *)
Inductive history : list ref -> list (request * answer) -> list ref -> Prop :=
| hi_none l : history l [] l
| hi_step l q a l' t l'' : behaves l q a l' -> (forall r, q = RAdd r -> ~ In r l) -> history l' t l'' -> history l ((q, a) :: t) l''.
(** The elements of an array that refer to these objects *)
Definition ref_elements (l : list ref) : list obj := map (fun r => ORef (fst r) (snd r)) l.
(** The value that an element of an array stands for: the object it refers to, or itself *)
Inductive stands (look : ref -> option obj) : obj -> obj -> Prop :=
| st_ref r v : r <> (0, 0) -> look r = Some v -> stands look (ORef (fst r) (snd r)) v
| st_self o : (forall r, o = ORef (fst r) (snd r) -> look r = None \/ r = (0, 0)) -> stands look o o.
(** The array of a dictionary entry: distinct references to objects that make an item, or no entry at all *)
Definition regular (look : ref -> option obj) (make : obj -> res bool) (src : option obj) (l : list ref) : Prop :=
  NoDup l /\ (forall r, In r l -> r <> (0, 0) /\ exists v, look r = Some v /\ make v = Ok true) /\
  (src = Some (OArr (ref_elements l)) \/ (src = None /\ l = [])).
(** Names of annotation types, ISO 32000 table 169, and those of the extension levels *)
Definition annotation_types : list (list Z) :=
  map bs ["3D"; "Caret"; "Circle"; "FileAttachment"; "FreeText"; "Highlight"; "Ink"; "Line"; "Link"; "Movie"; "PolyLine"; "Polygon";
    "Popup"; "PrinterMark"; "Projection"; "Redact"; "RichMedia"; "Screen"; "Sound"; "Square"; "Squiggly"; "Stamp"; "StrikeOut";
    "Text"; "TrapNet"; "Underline"; "Watermark"; "WebMedia"; "Widget"]%string.
