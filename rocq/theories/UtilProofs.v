(** Lemmas behind UtilProps.v. *)
From Coq Require Import String.
From Verif Require Import Base BitLemmas TokModel WriteModel FilterModel FilterSpec FilterPropLemmas LexProofs UtilModel.
Local Open Scope Z_scope.

(** ** Recursion guard *)
(** Levels of nesting of a call *)
Fixpoint levels (c : call) : nat := let '(Call inner) := c in S (fold_right Nat.max 0%nat (map levels inner)).

Definition body (max : Z) := fix body (d : Z) (l : list call) : Z * bool :=
  match l with
  | [] => (d, false)
  | x :: r => let '(d1, e) := guarded max d x in if e then (d1, true) else body d1 r
  end.
Lemma guarded_eq max depth inner : guarded max depth (Call inner) =
  if max <? u32 (depth + 1) then (u32 (depth + 1), true)
  else let '(d2, r) := body max (u32 (depth + 1)) inner in (u32 (d2 - 1), r).
Proof. reflexivity. Qed.

Lemma call_ind' (P : call -> Prop) : (forall l, Forall P l -> P (Call l)) -> forall c, P c.
Proof.
  intro H. fix F 1. intros [l]. apply H. induction l as [|x l IH]; [constructor|constructor; [apply F|exact IH]].
Qed.

Lemma fold_max_le l n : (fold_right Nat.max 0%nat (map levels l) <= n)%nat <-> Forall (fun c => (levels c <= n)%nat) l.
Proof.
  induction l as [|c l IH]; cbn [map fold_right]; split; intro H; [constructor|lia| |].
  - constructor; [lia|apply IH; lia].
  - inversion H as [|? ? H1 H2]; subst. apply IH in H2. lia.
Qed.

(** What a guarded call does, for every nesting *)
Lemma guarded_spec max : 0 <= max < 2 ^ 32 - 1 -> forall c d, 0 <= d <= max ->
  guarded max d c = if Z.of_nat (levels c) + d <=? max then (d, false) else (d + 1, true).
Proof.
  intro M. induction c as [l IH] using call_ind'. intros d Hd. rewrite guarded_eq.
  assert (U : u32 (d + 1) = d + 1) by (apply u32_id; lia). rewrite U.
  cbn [levels]. destruct (max <? d + 1) eqn:E.
  - apply Z.ltb_lt in E. destruct (Z.leb_spec (Z.of_nat (S (fold_right Nat.max 0%nat (map levels l))) + d) max); [lia|reflexivity].
  - apply Z.ltb_ge in E. assert (B : forall l, Forall (fun c => forall d, 0 <= d <= max ->
        guarded max d c = if Z.of_nat (levels c) + d <=? max then (d, false) else (d + 1, true)) l ->
        body max (d + 1) l = if Z.of_nat (fold_right Nat.max 0%nat (map levels l)) + (d + 1) <=? max then (d + 1, false) else (d + 2, true)).
    { clear l IH. induction l as [|x l IHl]; intro F; cbn [body map fold_right].
      - destruct (Z.leb_spec (Z.of_nat 0 + (d + 1)) max); [reflexivity|lia].
      - inversion F as [|? ? Fx Fl]; subst. rewrite Fx by lia.
        destruct (Z.leb_spec (Z.of_nat (levels x) + (d + 1)) max).
        + change (body max (d + 1) l) with (body max (d + 1) l). rewrite (IHl Fl).
          destruct (Z.leb_spec (Z.of_nat (fold_right Nat.max 0%nat (map levels l)) + (d + 1)) max);
          destruct (Z.leb_spec (Z.of_nat (Nat.max (levels x) (fold_right Nat.max 0%nat (map levels l))) + (d + 1)) max); try lia; reflexivity.
        + destruct (Z.leb_spec (Z.of_nat (Nat.max (levels x) (fold_right Nat.max 0%nat (map levels l))) + (d + 1)) max); [lia|].
          f_equal. lia. }
    rewrite (B l IH).
    destruct (Z.leb_spec (Z.of_nat (fold_right Nat.max 0%nat (map levels l)) + (d + 1)) max);
    destruct (Z.leb_spec (Z.of_nat (S (fold_right Nat.max 0%nat (map levels l))) + d) max); try lia.
    + f_equal. rewrite u32_id; lia.
    + f_equal. rewrite u32_id; lia.
Qed.

(** A history of calls: at [d] errors so far the limit has shrunk by [d] *)
Lemma guard_history max l : 0 <= max < 2 ^ 32 - 1 -> Forall (fun c => Z.of_nat (levels c) <= max) l ->
  guarded_all max 0 l = (0, map (fun _ => false) l).
Proof.
  intros M F. induction F as [|c l Hc Hl IH]; cbn [guarded_all map]; [reflexivity|].
  rewrite (guarded_spec max M c 0) by lia. replace (Z.of_nat (levels c) + 0 <=? max) with true by (symmetry; apply Z.leb_le; lia).
  rewrite IH. reflexivity.
Qed.

(** nesting of exactly [n] levels *)
Fixpoint deep (n : nat) : call := match n with O => Call [] | S m => Call [deep m] end.
Lemma levels_deep n : levels (deep n) = S n.
Proof. induction n as [|n IH]; [reflexivity|]. cbn [deep levels map fold_right]. rewrite IH. lia. Qed.

Lemma guard_leak max : 0 < max < 2 ^ 32 - 1 ->
  guarded max 0 (deep (Z.to_nat max)) = (1, true) /\
  guarded_all max 0 [deep (Z.to_nat max - 1)] = (0, [false]) /\
  guarded_all max 0 [deep (Z.to_nat max); deep (Z.to_nat max - 1)] = (2, [true; true]).
Proof.
  intro M. cbn [guarded_all]. rewrite !(guarded_spec max) by lia. rewrite !levels_deep.
  replace (Z.of_nat (S (Z.to_nat max)) + 0 <=? max) with false by (symmetry; apply Z.leb_gt; lia).
  replace (Z.of_nat (S (Z.to_nat max - 1)) + 0 <=? max) with true by (symmetry; apply Z.leb_le; lia).
  rewrite !(guarded_spec max) by lia. rewrite !levels_deep.
  replace (Z.of_nat (S (Z.to_nat max - 1)) + (0 + 1) <=? max) with false by (symmetry; apply Z.leb_gt; lia). repeat split; reflexivity.
Qed.

(** a limit of 0 does not switch the check off *)
Lemma guard_zero c : snd (guarded 0 0 c) = true.
Proof. destruct c. reflexivity. Qed.

(** ** Overflow *)
Lemma mul_overflow_spec a b : 0 <= a < 2 ^ 64 -> 0 <= b < 2 ^ 64 -> (mul_overflow a b = true <-> 2 ^ 64 <= a * b).
Proof.
  intros Ha Hb. unfold mul_overflow. rewrite !andb_true_iff, orb_true_iff, !Z.leb_le, !Z.ltb_lt.
  destruct (Z.eq_dec a 0) as [->|N]; [lia|].
  assert (D : (2 ^ 64 - 1) / a < b <-> 2 ^ 64 <= a * b).
  { split; intro H.
    - assert (2 ^ 64 - 1 < a * b); [|lia]. pose proof (Z.mul_succ_div_gt (2 ^ 64 - 1) a ltac:(lia)). nia.
    - apply Z.div_lt_upper_bound; lia. }
  rewrite D. split; [tauto|]. intro H. split; [|exact H]. split; [|lia].
  destruct (Z.lt_ge_cases a (2 ^ 32)); destruct (Z.lt_ge_cases b (2 ^ 32)); [|lia..].
  assert (a * b < 2 ^ 64); [|lia]. change (2 ^ 64) with (2 ^ 32 * 2 ^ 32). nia.
Qed.

(** ** Big-endian integers *)
Lemma div_mod_256 v : v = v / 256 * 256 + v mod 256.
Proof. rewrite (Z.div_mod v 256) at 1; lia. Qed.

Lemma split32 v : 0 <= v < 2 ^ 32 ->
  exists a b c d, is_byte a /\ is_byte b /\ is_byte c /\ is_byte d /\ v = a * 2 ^ 24 + b * 2 ^ 16 + c * 2 ^ 8 + d.
Proof.
  intro H. exists (v / 2 ^ 24), (v / 2 ^ 16 mod 256), (v / 2 ^ 8 mod 256), (v mod 256).
  unfold is_byte.
  assert (E1 : v / 2 ^ 16 = v / 2 ^ 8 / 256) by (rewrite Z.div_div by lia; reflexivity).
  assert (E2 : v / 2 ^ 24 = v / 2 ^ 16 / 256) by (rewrite Z.div_div by lia; reflexivity).
  pose proof (div_mod_256 v) as D0. pose proof (div_mod_256 (v / 2 ^ 8)) as D1. pose proof (div_mod_256 (v / 2 ^ 16)) as D2.
  change (2 ^ 8) with 256 in *.
  pose proof (Z.mod_pos_bound v 256 ltac:(lia)). pose proof (Z.mod_pos_bound (v / 256) 256 ltac:(lia)).
  pose proof (Z.mod_pos_bound (v / 2 ^ 16) 256 ltac:(lia)).
  assert (0 <= v / 2 ^ 24 < 256). { split; [apply Z.div_pos; lia|apply Z.div_lt_upper_bound; lia]. }
  repeat split; lia.
Qed.

Lemma bytes32 a b c d : is_byte a -> is_byte b -> is_byte c -> is_byte d ->
  let v := a * 2 ^ 24 + b * 2 ^ 16 + c * 2 ^ 8 + d in
  v mod 256 = d /\ v / 2 ^ 8 mod 256 = c /\ v / 2 ^ 16 mod 256 = b /\ v / 2 ^ 24 mod 256 = a.
Proof.
  unfold is_byte. intros Ha Hb Hc Hd. cbv zeta.
  assert (E0 : a * 2 ^ 24 + b * 2 ^ 16 + c * 2 ^ 8 + d = d + (a * 2 ^ 16 + b * 2 ^ 8 + c) * 256) by lia.
  assert (E1 : (a * 2 ^ 24 + b * 2 ^ 16 + c * 2 ^ 8 + d) / 2 ^ 8 = c + (a * 2 ^ 8 + b) * 256).
  { symmetry. apply Z.div_unique with d; lia. }
  assert (E2 : (a * 2 ^ 24 + b * 2 ^ 16 + c * 2 ^ 8 + d) / 2 ^ 16 = b + a * 256).
  { symmetry. apply Z.div_unique with (c * 2 ^ 8 + d); lia. }
  assert (E3 : (a * 2 ^ 24 + b * 2 ^ 16 + c * 2 ^ 8 + d) / 2 ^ 24 = a).
  { symmetry. apply Z.div_unique with (b * 2 ^ 16 + c * 2 ^ 8 + d); lia. }
  rewrite E1, E2, E3, E0, !Z.mod_add by lia. rewrite !Z.mod_small by lia. repeat split; reflexivity.
Qed.

Lemma write_u32be_le v : 0 <= v < 2 ^ 32 ->
  write_u32be true v = [v / 2 ^ 24 mod 256; v / 2 ^ 16 mod 256; v / 2 ^ 8 mod 256; v mod 256].
Proof.
  intro H. destruct (split32 v H) as (a & b & c & d & Ha & Hb & Hc & Hd & ->).
  destruct (bytes32 a b c d Ha Hb Hc Hd) as (E0 & E1 & E2 & E3).
  unfold write_u32be, as_be32, bswap32. cbv zeta. rewrite E0, E1, E2, E3.
  destruct (bytes32 d c b a Hd Hc Hb Ha) as (F0 & F1 & F2 & F3). rewrite F0, F1, F2, F3. reflexivity.
Qed.

Lemma u32_back little v rest : 0 <= v < 2 ^ 32 -> read_u32be little (write_u32be little v ++ rest) = Ok v.
Proof.
  intro H. destruct (split32 v H) as (a & b & c & d & Ha & Hb & Hc & Hd & ->).
  destruct (bytes32 a b c d Ha Hb Hc Hd) as (E0 & E1 & E2 & E3).
  destruct (bytes32 d c b a Hd Hc Hb Ha) as (F0 & F1 & F2 & F3).
  destruct little; unfold write_u32be, read_u32be, as_be32, bswap32; cbv zeta; cbn [app]; f_equal.
  - rewrite E0, E1, E2, E3, F0, F1, F2, F3.
    replace (a + b * 2 ^ 8 + c * 2 ^ 16 + d * 2 ^ 24) with (d * 2 ^ 24 + c * 2 ^ 16 + b * 2 ^ 8 + a) by lia.
    rewrite F0, F1, F2, F3. reflexivity.
  - rewrite E0, E1, E2, E3. lia.
Qed.

Lemma to_signed_back w z : 0 < w -> - 2 ^ (w - 1) <= z < 2 ^ (w - 1) -> to_signed w (z mod 2 ^ w) = z.
Proof.
  intros Hw H. unfold to_signed. assert (E : 2 ^ w = 2 * 2 ^ (w - 1)).
  { rewrite <- Z.pow_succ_r by lia. f_equal. lia. }
  destruct (Z.lt_ge_cases z 0).
  - assert (M : z mod 2 ^ w = z + 2 ^ w). { symmetry. apply Z.mod_unique with (-1); lia. }
    rewrite M. destruct (Z.ltb_spec (z + 2 ^ w) (2 ^ (w - 1))); lia.
  - rewrite Z.mod_small by lia. destruct (Z.ltb_spec z (2 ^ (w - 1))); lia.
Qed.

Lemma i32_back little v rest : - 2 ^ 31 <= v < 2 ^ 31 -> read_i32be little (write_i32be little v ++ rest) = Ok v.
Proof.
  intro H. unfold read_i32be, write_i32be. rewrite u32_back by (apply Z.mod_pos_bound; lia). cbn [bind]. f_equal.
  unfold u32. apply (to_signed_back 32); [lia|exact H].
Qed.

Lemma split16 v : 0 <= v < 2 ^ 16 -> exists a b, is_byte a /\ is_byte b /\ v = a * 256 + b.
Proof.
  intro H. exists (v / 256), (v mod 256). unfold is_byte. pose proof (div_mod_256 v).
  pose proof (Z.mod_pos_bound v 256 ltac:(lia)). assert (0 <= v / 256 < 256) by (split; [apply Z.div_pos; lia|apply Z.div_lt_upper_bound; lia]). lia.
Qed.
Lemma bytes16 a b : is_byte a -> is_byte b -> (a * 256 + b) mod 256 = b /\ (a * 256 + b) / 256 mod 256 = a.
Proof.
  unfold is_byte. intros Ha Hb. assert (E : (a * 256 + b) / 256 = a) by (symmetry; apply Z.div_unique with b; lia).
  rewrite E. replace (a * 256 + b) with (b + a * 256) by lia. rewrite Z.mod_add by lia. rewrite !Z.mod_small by lia. auto.
Qed.
Lemma write_u16be_le v : 0 <= v < 2 ^ 16 -> write_u16be true v = [v / 256 mod 256; v mod 256].
Proof.
  intro H. destruct (split16 v H) as (a & b & Ha & Hb & ->). destruct (bytes16 a b Ha Hb) as (E0 & E1).
  destruct (bytes16 b a Hb Ha) as (F0 & F1).
  unfold write_u16be, as_be16, bswap16. cbv zeta. change (2 ^ 8) with 256. rewrite E0, E1, F0, F1. reflexivity.
Qed.
Lemma u16_back little v rest : 0 <= v < 2 ^ 16 -> read_u16be little (write_u16be little v ++ rest) = Ok v.
Proof.
  intro H. destruct (split16 v H) as (a & b & Ha & Hb & ->). destruct (bytes16 a b Ha Hb) as (E0 & E1).
  destruct (bytes16 b a Hb Ha) as (F0 & F1).
  destruct little; unfold write_u16be, read_u16be, as_be16, bswap16; cbv zeta; change (2 ^ 8) with 256; cbn [app]; f_equal.
  - rewrite E0, E1, F0, F1. replace (a + b * 256) with (b * 256 + a) by lia. rewrite F0, F1. reflexivity.
  - rewrite E0, E1. lia.
Qed.
Lemma i16_back little v rest : - 2 ^ 15 <= v < 2 ^ 15 -> read_i16be little (write_i16be little v ++ rest) = Ok v.
Proof.
  intro H. unfold read_i16be, write_i16be. rewrite u16_back by (apply Z.mod_pos_bound; lia). cbn [bind]. f_equal.
  unfold u16. apply (to_signed_back 16); [lia|exact H].
Qed.

(** ** Tables *)
Lemma lookup_in {A} (l : list (list Z * A)) s a : lookup l s = Some a -> In (s, a) l.
Proof.
  induction l as [|[n x] l IH]; cbn [lookup]; [discriminate|]. destruct (beq s n) eqn:E.
  - intro H. apply beq_eq in E. left. congruence.
  - intro H. right. apply IH. exact H.
Qed.

Lemma versions_inverse v s : get_version s = v /\ v <> VUnknown <-> version_name v = Ok s.
Proof.
  split.
  - intros [H N]. unfold get_version in H. destruct (lookup versions s) as [w|] eqn:L; [|congruence]. subst w.
    apply lookup_in in L. unfold versions in L. cbn [In] in L.
    repeat (destruct L as [L|L]; [injection L as <- <-; reflexivity|]). destruct L.
  - intro H. destruct v; cbn in H; try discriminate; apply ok_inj in H; subst s; split; try discriminate; reflexivity.
Qed.
Lemma annots_inverse a s : name_annot s = Ok a <-> annot_name a = Ok s.
Proof.
  split.
  - intro H. unfold name_annot in H. destruct (lookup annots s) as [w|] eqn:L; [|discriminate]. apply ok_inj in H. subst w.
    apply lookup_in in L. unfold annots in L. cbn [In] in L.
    repeat (destruct L as [L|L]; [injection L as <- <-; reflexivity|]). destruct L.
  - intro H. destruct a; cbn in H; try discriminate; apply ok_inj in H; subst s; vm_compute; reflexivity.
Qed.
Lemma annots_named a : a <> AUnknown -> exists s, annot_name a = Ok s.
Proof. intro N. destruct a; try congruence; eexists; reflexivity. Qed.
Lemma cspaces_inverse c s : name_cspace s = Ok c <-> cspace_name c = Ok s.
Proof.
  split.
  - intro H. unfold name_cspace in H. destruct (lookup cspaces s) as [w|] eqn:L; [|discriminate]. apply ok_inj in H. subst w.
    apply lookup_in in L. unfold cspaces in L. cbn [In] in L.
    repeat (destruct L as [L|L]; [injection L as <- <-; reflexivity|]). destruct L.
  - intro H. destruct c; cbn in H; try discriminate; apply ok_inj in H; subst s; vm_compute; reflexivity.
Qed.
Lemma filters_inverse t s : name_to_filter s = Ok t <-> filter_to_name t = s.
Proof.
  split.
  - intro H. apply std_names_inv in H. subst s. destruct t; reflexivity.
  - intros <-. destruct t; vm_compute; reflexivity.
Qed.
Lemma filters_short_inverse t s : short_to_filter s = Ok t <-> filter_to_short t = Ok s.
Proof.
  split.
  - intro H. unfold short_to_filter in H. destruct (lookup filters_short s) as [w|] eqn:L; [|discriminate]. apply ok_inj in H. subst w.
    apply lookup_in in L. unfold filters_short in L. cbn [In] in L.
    repeat (destruct L as [L|L]; [injection L as <- <-; reflexivity|]). destruct L.
  - intro H. destruct t; cbn in H; try discriminate; apply ok_inj in H; subst s; vm_compute; reflexivity.
Qed.

(** ** Integers as text *)
Lemma format_short t v : (length (dec_signed v) <= digits10 t)%nat -> format_int t v = Ok (dec_signed v).
Proof. intro H. unfold format_int. apply Nat.leb_le in H. rewrite H. reflexivity. Qed.
Lemma format_refuted : forall t, exists v, ity_min t <= v <= ity_max t /\ format_int t v = UB.
Proof.
  intro t. exists (ity_max t). split; [destruct t; cbn; lia|]. destruct t; vm_compute; reflexivity.
Qed.

Lemma guard_exact max : 0 <= max < 2 ^ 32 - 1 -> forall c, snd (guarded max 0 c) = true <-> max < Z.of_nat (levels c).
Proof.
  intros M c. rewrite (guarded_spec max M c 0) by lia.
  destruct (Z.leb_spec (Z.of_nat (levels c) + 0) max); cbn [snd]; split; intro H'; try discriminate; try reflexivity; lia.
Qed.
Lemma guard_shrinks max d c : 0 <= max < 2 ^ 32 - 1 -> 0 <= d <= max ->
  guarded max d c = if Z.of_nat (levels c) <=? max - d then (d, false) else (d + 1, true).
Proof.
  intros M Hd. rewrite (guarded_spec max M c d Hd).
  destruct (Z.leb_spec (Z.of_nat (levels c) + d) max); destruct (Z.leb_spec (Z.of_nat (levels c)) (max - d)); try lia; reflexivity.
Qed.

Lemma u32_form v : 0 <= v < 2 ^ 32 -> length (write_u32be true v) = 4%nat /\ bytes_ok (write_u32be true v) /\
  fold_left (fun v b => v * 256 + b) (write_u32be true v) 0 = v.
Proof.
  intro H. rewrite (write_u32be_le v H). destruct (split32 v H) as (a & b & c & d & Ha & Hb & Hc & Hd & E).
  destruct (bytes32 a b c d Ha Hb Hc Hd) as (E0 & E1 & E2 & E3). rewrite <- E in *. rewrite E0, E1, E2, E3.
  split; [reflexivity|]. split; [repeat constructor; try apply Ha; try apply Hb; try apply Hc; apply Hd|].
  cbn [fold_left]. lia.
Qed.
Lemma u16_form v : 0 <= v < 2 ^ 16 -> length (write_u16be true v) = 2%nat /\ bytes_ok (write_u16be true v) /\
  fold_left (fun v b => v * 256 + b) (write_u16be true v) 0 = v.
Proof.
  intro H. rewrite (write_u16be_le v H). destruct (split16 v H) as (a & b & Ha & Hb & E).
  destruct (bytes16 a b Ha Hb) as (E0 & E1). rewrite <- E in *. rewrite E0, E1.
  split; [reflexivity|]. split; [repeat constructor; try apply Ha; apply Hb|]. cbn [fold_left]. lia.
Qed.
Lemma be_reading a b c d rest : is_byte a -> is_byte b -> is_byte c -> is_byte d ->
  read_u32be true (a :: b :: c :: d :: rest) = Ok (fold_left (fun v b => v * 256 + b) [a; b; c; d] 0) /\
  read_u16be true (a :: b :: rest) = Ok (fold_left (fun v b => v * 256 + b) [a; b] 0).
Proof.
  intros Ha Hb Hc Hd. unfold read_u32be, read_u16be, as_be32, as_be16, bswap32, bswap16. cbn [fold_left]. split; f_equal.
  - replace (a + b * 2 ^ 8 + c * 2 ^ 16 + d * 2 ^ 24) with (d * 2 ^ 24 + c * 2 ^ 16 + b * 2 ^ 8 + a) by lia.
    destruct (bytes32 d c b a Hd Hc Hb Ha) as (F0 & F1 & F2 & F3). rewrite F0, F1, F2, F3. lia.
  - change (2 ^ 8) with 256. replace (a + b * 256) with (b * 256 + a) by lia.
    destruct (bytes16 b a Hb Ha) as (F0 & F1). rewrite F0, F1. lia.
Qed.
Lemma be_host_refuted : exists v, 0 <= v < 2 ^ 16 /\ fold_left (fun v b => v * 256 + b) (write_u16be false v) 0 <> v.
Proof. exists 1. split; [lia|]. vm_compute. discriminate. Qed.

Definition version_digits (v : version) : Z * Z :=
  match v with
  | VUnknown => (0, 0) | V10 => (1, 0) | V11 => (1, 1) | V12 => (1, 2) | V13 => (1, 3) | V14 => (1, 4) | V15 => (1, 5)
  | V16 => (1, 6) | V17 => (1, 7) | V20 => (2, 0)
  end.
Lemma versions_digits v : v <> VUnknown ->
  exists major minor, version_digits v = (major, minor) /\ version_name v = Ok [48 + major; 46; 48 + minor].
Proof. intro N. destruct v; try congruence; eexists _, _; (split; [reflexivity|vm_compute; reflexivity]). Qed.
Lemma cspaces_named c : c <> CSUnknown -> c <> CSCalRGB -> exists s, cspace_name c = Ok s.
Proof. intros N M. destruct c; try congruence; eexists; reflexivity. Qed.
Lemma calrgb_refuted : (forall s, cspace_name CSCalRGB <> Ok s) /\ name_cspace (bs "CalRGB") = Err EInvalidDataType.
Proof. split; [discriminate|vm_compute; reflexivity]. Qed.

Lemma format_fits t v : - 10 ^ (Z.of_nat (digits10 t) - 1) < v < 10 ^ Z.of_nat (digits10 t) -> format_int t v = Ok (dec_signed v).
Proof.
  intro H. apply format_short. unfold dec_signed. destruct (Z.ltb_spec v 0).
  - cbn [length]. assert (L : (length (dec (- v)) <= digits10 t - 1)%nat).
    { apply dec_len; [|destruct t; cbn; lia]. replace (Z.of_nat (digits10 t - 1)) with (Z.of_nat (digits10 t) - 1) by (destruct t; reflexivity). lia. }
    assert (1 <= digits10 t)%nat by (destruct t; cbn; lia). lia.
  - apply dec_len; [lia|destruct t; cbn; lia].
Qed.
