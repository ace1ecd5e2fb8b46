(** What the appearance characteristics of a widget are, by the standard: 12.5.6.19, tables 188 and 189. *)
From Coq Require Import String.
From Verif Require Import Base TokModel LinkSpec CharsModel.
Local Open Scope Z_scope.

(** The entry of each characteristic *)
Definition entry_name (t : trait) : list Z :=
  match t with
  | TCaption => bs "CA" | TRollover => bs "RC" | TAlternate => bs "AC" | TBorder => bs "BC" | TBackground => bs "BG"
  end.
Definition same_trait (a b : trait) : bool := beq (entry_name a) (entry_name b).
(** What was last set of each characteristic; [None]: the widget has no characteristics *)
Definition traits : Type := option (trait -> option obj).
Definition of_trait (x : traits) (t : trait) : option obj := match x with Some g => g t | None => None end.
Definition change_trait (x : traits) (t : trait) (v : option obj) : traits := Some (fun u => if same_trait t u then v else of_trait x u).
(** Setting makes characteristics, even if what is set cannot be made; clearing does not *)
Definition note (x : traits) (o : wop) : traits :=
  match o with
  | Put t (Ok v) => change_trait x t (Some v)
  | Put _ _ => Some (of_trait x)
  | Clear t => match x with None => None | Some _ => change_trait x t None end
  end.
(** The characteristics of the widget [w]: these and no others *)
Definition characteristics (h : document) (w : Z * Z) (x : traits) : Prop :=
  exists d, h w = Some (ODict d) /\
  match x with
  | None => absent d (bs "MK")
  | Some g => exists n r v, dict_get (bs "MK") d = Some (ORef n r) /\ h (n, r) = Some (ODict v) /\
      (forall t, dict_get (entry_name t) v = g t) /\ forall k, (forall t, k <> entry_name t) -> absent v k
  end.
