(** What a map between codes and texts is: the history of the mappings pushed, of which the last one of a number counts. *)
From Coq Require Import Permutation.
From Verif Require Import Base CodeModel.
Local Open Scope Z_scope.

(** The code [c] stands for the text [p] after the pushes [ps] *)
Definition stands_for (ps : list (code * list Z)) (c : code) (p : list Z) : Prop :=
  exists before after, ps = before ++ (c, p) :: after /\ forall q, In q after -> c_num (fst q) <> c_num c.
(** No number is used with two sizes *)
Definition consistent (ps : list (code * list Z)) : Prop := forall p q, In p ps -> In q ps -> c_num (fst p) = c_num (fst q) -> c_size (fst p) = c_size (fst q).
(** No text has two codes *)
Definition unique_texts (ps : list (code * list Z)) : Prop := forall c c' p, stands_for ps c p -> stands_for ps c' p -> c = c'.
Definition is_shuffle (sh : unit_map -> unit_map) : Prop := forall m, Permutation m (sh m).
(** The maps that arise from pushes and look ups, whatever the random orders *)
Inductive reach : char_map -> list (code * list Z) -> Prop :=
| R_new : reach new_map []
| R_push s ps c p s' : reach s ps -> push s c p = Ok s' -> reach s' (ps ++ [(c, p)])
| R_next s ps sh text : reach s ps -> is_shuffle sh -> reach (fst (next_code sh s text)) ps
| R_text s ps sh text : reach s ps -> is_shuffle sh -> reach (fst (code_of_text sh s text)) ps
| R_point s ps sh cp : reach s ps -> is_shuffle sh -> reach (fst (code_of_point sh s cp)) ps.
(** [text] begins with a text that has a code, and the result is the longest one *)
Definition longest (ps : list (code * list Z)) (text : list Z) (r : option (code * list Z)) : Prop :=
  match r with
  | Some (c, rest) => exists p, p <> [] /\ text = p ++ rest /\ stands_for ps c p /\ forall c' p' rest', text = p' ++ rest' -> stands_for ps c' p' -> (length p' <= length p)%nat
  | None => forall c p rest, text = p ++ rest -> ~ stands_for ps c p
  end.
(** The n bytes of a number, most significant first *)
Fixpoint number_of (bytes : list Z) : Z := match bytes with [] => 0 | b :: r => b * 256 ^ Z.of_nat (length r) + number_of r end.
