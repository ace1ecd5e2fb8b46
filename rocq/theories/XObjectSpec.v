(** What XObjects and graphics states are, by ISO 32000-1. *)
From Coq Require Import String QArith.
From Verif Require Import Base TokModel LinkSpec AnnotSpec.
Local Open Scope Z_scope.
Local Notation dict := (list (list Z * obj)) (only parsing).

(** Tables 88, 89 and 95: Type is optional, Subtype is not. *)
Inductive xobject_is (h : document) (s : list Z) (d : dict) : Prop :=
| Xobj : absent d (bs "Type") \/ entry_is h d (bs "Type") (OName (bs "XObject")) -> List.In s [bs "Form"; bs "Image"; bs "PS"] -> entry_is h d (bs "Subtype") (OName s) -> xobject_is h s d.
(** Table 95: the matrix is the identity by default. *)
Inductive matrix_is (h : document) (d : dict) : list Q -> Prop :=
| MNone : absent d (bs "Matrix") -> matrix_is h d (map inject_Z [1; 0; 0; 1; 0; 0])
| MSome l vs qs : entry_is h d (bs "Matrix") (OArr l) -> Forall2 (value_is h) l vs -> Forall2 number_is vs qs -> length qs = 6%nat -> matrix_is h d qs.
Definition same_numbers (a b : list Q) : Prop := Forall2 Qeq a b.

(** ** Graphics states *)
(** Table 58: without op, OP is for both kinds of painting. [None]: the parameter is left as it is. *)
Definition entry_of (d : dict) (k : list Z) (v : option obj) : Prop := dict_get k d = v.
Inductive stroke_overprint (d : dict) : option bool -> Prop :=
| SOnone : absent d (bs "OP") -> stroke_overprint d None
| SOsome b : dict_get (bs "OP") d = Some (OBool b) -> stroke_overprint d (Some b).
Inductive fill_overprint (d : dict) : option bool -> Prop :=
| FOsome b : dict_get (bs "op") d = Some (OBool b) -> fill_overprint d (Some b)
| FOboth v : absent d (bs "op") -> stroke_overprint d v -> fill_overprint d v.
(** The last value that a list of calls gives a parameter; [sel] are the calls that concern it. *)
Fixpoint last_value {C V : Type} (sel : C -> option V) (v : option V) (cs : list C) : option V :=
  match cs with [] => v | c :: t => last_value sel (match sel c with Some x => Some x | None => v end) t end.
