(** What it means that a page was appended *)
From Coq Require Import String.
From Verif Require Import Base TokModel OwnSpec ListModel ListSpec PageModel.
Local Open Scope Z_scope.

(** ISO 32000-1, table 30: the entries of pages that are inherited *)
Definition inherited : list (list Z) := [bs "Resources"; bs "MediaBox"; bs "CropBox"; bs "Rotate"].
(** References in the copied objects are shifted *)
Definition moved (diff : Z) (p : ref) : ref := (fst p + diff, snd p).
(** The numbers in a value stay numbers of 32 bits *)
Definition small (diff : Z) (v : obj) : Prop := forall n g, mentions v (n, g) -> 0 <= n < 2 ^ 32 - diff.
(** The page with the entries [sd] in the document [look] has got the entries [d'], where its copy had [d0] *)
Definition taken_over (look : heap) (diff : Z) (sd d0 d' : list (list Z * obj)) : Prop :=
  (forall k v, In k inherited -> inherits look k sd (Some v) -> small diff v -> exists v', shifted diff v v' /\ dict_get k d' = Some v') /\
  (forall k, In k inherited -> inherits look k sd None -> dict_get k d' = dict_get k d0) /\
  (forall k, ~ In k inherited -> k <> bs "Parent" -> dict_get k d' = dict_get k d0).
