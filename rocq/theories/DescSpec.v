(** ISO 32000-1, table 122: what a font descriptor says. Its numbers are thousandths of the unit of text space, and entries that are absent are 0. *)
From Coq Require Import String QArith Qabs.
From Verif Require Import Base TokModel OwnModel.
Local Open Scope Z_scope.
(** The value under a key, 0 where it is absent *)
Definition says (d : list (list Z * obj)) (k : list Z) : obj := match dict_find (fun _ => None) k d with Some o => o | None => ONum 0 end.
(** Two descriptors say the same *)
Definition same_descriptor (d d' : list (list Z * obj)) : Prop := forall k, says d k = says d' k.
(** [x] is [y] but for half a thousandth *)
Definition close (x y : Q) : Prop := (Qabs (x - y) <= 1 # 2000)%Q.
(** An entry with no value below 0, which is absent for 0 *)
Definition close_opt (x y : Q) : Prop := (if Qle_bool y 0 then x <= 0 else close x y)%Q.
