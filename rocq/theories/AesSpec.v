(** Encryption of strings and streams with AES, ISO 32000-1, 7.6.2: a random vector, then the blocks of the padded data, each combined
    with the encrypted block before *)
From Verif Require Import Base AesModel.
Local Open Scope Z_scope.

Definition padded (data : list Z) : list Z := let n := (16 - length data mod 16)%nat in data ++ repeat (Z.of_nat n) n.
Fixpoint chain (E : list Z -> list Z) (prev : list Z) (blocks : list (list Z)) : list (list Z) :=
  match blocks with [] => [] | b :: r => let c := E (xors b prev) in c :: chain E c r end.
Definition blocks_of_16 (l : list (list Z)) : Prop := Forall (fun b => length b = 16%nat) l.
(** [D] inverts [E] on blocks *)
Definition cipher (E D : list Z -> list Z) : Prop := forall b, length b = 16%nat -> length (E b) = 16%nat /\ D (E b) = b.
(** What other programs and this one write for [data] *)
Definition encrypted (E : list Z -> list Z) (iv data c : list Z) : Prop :=
  exists blocks, blocks_of_16 blocks /\ concat blocks = padded data /\ c = iv ++ concat (chain E iv blocks).
