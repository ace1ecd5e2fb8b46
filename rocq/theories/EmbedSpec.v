(** Table 127 of ISO 32000-1: the entries of the streams of font files *)
From Coq Require Import String.
From Verif Require Import Base TokModel OwnModel.
Local Open Scope Z_scope.

(** The clear text of a Type 1 file ends with the first eexec; [b] is what follows it *)
Definition clear_text (d a b : list Z) : Prop := d = a ++ bs "eexec" ++ b /\ forall a' b', d = a' ++ bs "eexec" ++ b' -> (length a <= length a')%nat.
Definition no_eexec (d : list Z) : Prop := forall a b, d <> a ++ bs "eexec" ++ b.
(** Spaces, tabs and ends of lines *)
Definition gap (c : Z) : Prop := In c [10; 13; 9; 32].
(** The three lengths of a Type 1 file are those of its parts, one after the other *)
Definition tells_parts (file : list (list Z * obj)) (d : list Z) : Prop := exists x y z,
  dict_get (bs "Length1") file = Some (ONum x) /\ dict_get (bs "Length2") file = Some (ONum y) /\ dict_get (bs "Length3") file = Some (ONum z) /\
  x + y + z = Z.of_nat (length d).
(** Files of kinds that were added later have a name for the kind *)
Definition tells_kind (file : list (list Z * obj)) (n : list Z) : Prop := dict_get (bs "Subtype") file = Some (OName n).
