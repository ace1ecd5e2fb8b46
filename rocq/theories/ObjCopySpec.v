(** What copying is to do: values and data, not where they are kept *)
From Coq Require Import String.
From Verif Require Import Base TokModel FilterModel OwnModel StreamModel ObjCopyModel.
Local Open Scope Z_scope.

(** The same data is read *)
Definition same_data (z : zlib) (look : Z * Z -> option obj) (st : store) (i : nat) (st' : store) (j : nat) : Prop :=
  forall n raw, read z look n raw st i = read z look n raw st' j.
(** The values agree but for the entries that concern the data, which are followed *)
Definition same_entries (a b : obj) : Prop :=
  match a, b with
  | ODict d, ODict e => forall k, k <> bs "Filter" -> k <> bs "DecodeParms" -> dict_get k d = dict_get k e
  | _, _ => a = b
  end.
(** Each stream is that of its object *)
Definition homed (st : store) : Prop := forall i c s, st i = Some c -> c_str c = Some s -> s_par s = i.
