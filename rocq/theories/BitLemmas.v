(** Arithmetic of shifts and disjoint bit-or. *)
From Verif Require Import Base.
Local Open Scope Z_scope.

Lemma lor_add a b n : 0 <= n -> 0 <= b < 2 ^ n -> Z.lor (a * 2 ^ n) b = a * 2 ^ n + b.
Proof.
  intros Hn Hb.
  assert (L : Z.land (a * 2 ^ n) b = 0).
  { apply Z.bits_inj'. intros i Hi. rewrite Z.land_spec, Z.bits_0.
    destruct (Z.ltb_spec i n).
    - rewrite Z.mul_pow2_bits_low by lia. reflexivity.
    - assert (Z.testbit b i = false) as ->; [|apply andb_false_r].
      destruct (Z.eq_dec b 0) as [->|]; [apply Z.bits_0|].
      apply Z.bits_above_log2; [lia|]. apply Z.log2_lt_pow2; [lia|].
      apply Z.lt_le_trans with (2 ^ n); [lia|]. apply Z.pow_le_mono_r; lia. }
  rewrite Z.add_nocarry_lxor by exact L. symmetry. apply Z.lxor_lor. exact L.
Qed.

Lemma u8_id c : is_byte c -> u8 c = c.
Proof. intros [? ?]. apply Z.mod_small. change (2 ^ 8) with 256. lia. Qed.

Lemma u8_byte c : is_byte (u8 c).
Proof. unfold u8, is_byte. change (2 ^ 8) with 256. apply Z.mod_pos_bound. lia. Qed.

Lemma u32_id c : 0 <= c < 2 ^ 32 -> u32 c = c.
Proof. intros. apply Z.mod_small. exact H. Qed.

Lemma schar_mod c : is_byte c -> schar c mod 256 = c.
Proof.
  intros [? ?]. unfold schar. destruct (c <? 128).
  - apply Z.mod_small. lia.
  - replace (c - 256) with (c + (-1) * 256) by lia. rewrite Z.mod_add by lia. apply Z.mod_small. lia.
Qed.

Lemma u8_schar c : is_byte c -> u8 (schar c) = c.
Proof. exact (schar_mod c). Qed.
