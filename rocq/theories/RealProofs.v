(** Formatting and reading of real numbers. *)
From Coq Require Import String.
From Verif Require Import Base TokModel WriteModel TokProofs LexProofs.
Local Open Scope Z_scope.

Lemma fixed_digits_spec n : forall z, 0 <= z < 10 ^ Z.of_nat n ->
  Forall (fun c => is_digit c = true) (fixed_digits n z) /\ dec_val (fixed_digits n z) = z /\ length (fixed_digits n z) = n.
Proof.
  induction n as [|n IH]; intros z Hz; cbn [fixed_digits].
  - change (10 ^ Z.of_nat 0) with 1 in Hz. repeat split; try constructor. cbn. lia.
  - rewrite Nat2Z.inj_succ, Z.pow_succ_r in Hz by lia.
    assert (0 <= z / 10 < 10 ^ Z.of_nat n). { split; [apply Z.div_pos; lia|]. apply Z.div_lt_upper_bound; lia. }
    destruct (IH _ H) as (H1 & H2 & H3). repeat split.
    + apply Forall_app. split; auto. repeat constructor. apply digit_of. apply Z.mod_pos_bound; lia.
    + rewrite dec_val_app, H2. unfold dec_val. cbn [fold_left length]. change (10 ^ Z.of_nat 1) with 10.
      pose proof (Z.div_mod z 10 ltac:(lia)). lia.
    + rewrite app_length, H3. cbn. lia.
Qed.

(** Removing the trailing zeroes of a fraction *)
Lemma strip_fraction n : forall z rest, 0 <= z < 10 ^ Z.of_nat n ->
  (z = 0 /\ drop_zeroes (rev (fixed_digits n z) ++ rest) = drop_zeroes rest) \/
  (exists j z', (1 <= j <= n)%nat /\ z = z' * 10 ^ Z.of_nat (n - j) /\ z' mod 10 <> 0 /\ 0 <= z' < 10 ^ Z.of_nat j /\
     drop_zeroes (rev (fixed_digits n z) ++ rest) = rev (fixed_digits j z') ++ rest).
Proof.
  induction n as [|n IH]; intros z rest Hz.
  - change (10 ^ Z.of_nat 0) with 1 in Hz. left. split; [lia|]. reflexivity.
  - pose proof Hz as Hz0. rewrite Nat2Z.inj_succ, Z.pow_succ_r in Hz by lia.
    assert (Hd : 0 <= z / 10 < 10 ^ Z.of_nat n). { split; [apply Z.div_pos; lia|]. apply Z.div_lt_upper_bound; lia. }
    cbn [fixed_digits]. rewrite rev_unit. cbn [app drop_zeroes].
    destruct (48 + z mod 10 =? 48) eqn:E.
    + apply Z.eqb_eq in E. pose proof (Z.div_mod z 10 ltac:(lia)).
      destruct (IH (z / 10) rest Hd) as [[H1 H2]|(j & z' & Hj & H1 & H2 & H3 & H4)].
      * left. split; [lia|exact H2].
      * right. exists j, z'. repeat split; try lia; auto.
        replace (S n - j)%nat with (S (n - j)) by lia. rewrite Nat2Z.inj_succ, Z.pow_succ_r by lia. lia.
    + apply Z.eqb_neq in E. right. exists (S n), z. repeat split; try lia.
      * replace (S n - S n)%nat with 0%nat by lia. cbn. lia.
      * cbn [fixed_digits]. rewrite rev_unit. reflexivity.
Qed.

(** Text of a formatted real with [u] units of 10^-6 and sign [neg]. *)
Definition ftext (neg : bool) (u : Z) : list Z :=
  remove_trailing_zeroes ((if neg then [45] else []) ++ dec (u / 10 ^ 6) ++ [46] ++ fixed_digits 6 (u mod 10 ^ 6)).

Lemma real_text_ftext m k : real_text m k = ftext (m <? 0) (micro m k).
Proof. reflexivity. Qed.

Lemma micro_nonneg m k : 0 <= micro m k.
Proof.
  unfold micro, round_div.
  assert (0 <= Z.abs m * 10 ^ 6 / 10 ^ Z.of_nat k).
  { apply Z.div_pos; [nia|]. apply Z.pow_pos_nonneg; lia. }
  destruct (_ <? _); [lia|]. destruct (_ <? _); [lia|]. destruct (Z.even _); lia.
Qed.

Lemma ftext_spec neg u : 0 <= u ->
  (u mod 10 ^ 6 = 0 /\ ftext neg u = (if neg then [45] else []) ++ dec (u / 10 ^ 6)) \/
  (exists j f, (1 <= j <= 6)%nat /\ u mod 10 ^ 6 = f * 10 ^ Z.of_nat (6 - j) /\ f mod 10 <> 0 /\ 0 <= f < 10 ^ Z.of_nat j /\
     ftext neg u = (if neg then [45] else []) ++ dec (u / 10 ^ 6) ++ [46] ++ fixed_digits j f).
Proof.
  intro Hu. unfold ftext, remove_trailing_zeroes.
  rewrite !rev_app_distr. cbn [rev app]. rewrite <- !app_assoc. cbn [app].
  assert (Hd : 0 <= u / 10 ^ 6) by (apply Z.div_pos; lia).
  destruct (dec_spec (u / 10 ^ 6) Hd) as (D1 & D2 & D3).
  assert (Hm : 0 <= u mod 10 ^ 6 < 10 ^ Z.of_nat 6) by (apply Z.mod_pos_bound; lia).
  destruct (strip_fraction 6 (u mod 10 ^ 6) (46 :: rev (dec (u / 10 ^ 6)) ++ rev (if neg then [45] else [])) Hm)
    as [[H1 H2]|(j & f & Hj & H1 & H2 & H3 & H4)].
  - left. split; [exact H1|]. rewrite H2. cbn [drop_zeroes]. change (46 =? 48) with false. cbn match.
    cbn [drop_dot]. change (46 =? 46) with true. cbn match.
    rewrite <- rev_app_distr.
    destruct (rev ((if neg then [45] else []) ++ dec (u / 10 ^ 6))) eqn:E.
    + exfalso. apply (f_equal (@rev Z)) in E. rewrite rev_involutive in E. cbn [rev] in E.
      apply app_eq_nil in E. destruct E as [_ E]. exact (D3 E).
    + transitivity (rev (z :: l)); [reflexivity|]. rewrite <- E. apply rev_involutive.
  - right. exists j, f. repeat split; auto; try lia. rewrite H4.
    assert (Hnz : f mod 10 <> 0) by exact H2.
    destruct j as [|j]; [lia|]. cbn [fixed_digits]. rewrite rev_unit. cbn [app drop_dot].
    assert ((48 + f mod 10 =? 46) = false) as ->.
    { apply Z.eqb_neq. pose proof (Z.mod_pos_bound f 10). lia. }
    cbn [rev]. rewrite rev_app_distr. cbn [rev]. rewrite rev_app_distr, !rev_involutive.
    repeat (rewrite <- !app_assoc; cbn [app]). reflexivity.
Qed.

Lemma from_chars_real_dot (neg : bool) ip fp : 0 <= ip -> Forall (fun c => is_digit c = true) fp ->
  from_chars_real ((if neg then [45] else []) ++ dec ip ++ [46] ++ fp)
  = Some ((if neg then -1 else 1) * (ip * 10 ^ Z.of_nat (length fp) + dec_val fp), length fp).
Proof.
  intros Hi Hf. destruct (dec_spec ip Hi) as (D1 & D2 & D3).
  unfold from_chars_real.
  assert (HS : span_digits (dec ip ++ 46 :: fp) = (dec ip, 46 :: fp)) by (apply span_digits_app; auto).
  assert (HF : span_digits fp = (fp, [])) by (apply span_digits_all; auto).
  assert (HV : dec_val (dec ip ++ fp) = ip * 10 ^ Z.of_nat (length fp) + dec_val fp) by (rewrite dec_val_app, D2; reflexivity).
  assert (HN : dec ip ++ fp <> []) by (intro A; apply app_eq_nil in A; destruct A; congruence).
  destruct neg; cbn [app].
  - change (45 =? 45) with true. cbn match. rewrite HS. cbn match. change (46 =? 46) with true. cbn match. rewrite HF. cbn [fst].
    destruct (dec ip ++ fp) eqn:E; [congruence|]. rewrite HV; do 2 f_equal; ring.
  - pose proof (digit_not_minus _ D1) as H4. destruct (dec ip) as [|c l] eqn:Ed; [congruence|].
    cbn [app] in *. rewrite H4. rewrite HS. change (46 =? 46) with true. cbn match. rewrite HF. cbn [fst].
    cbn [app]; rewrite HV; do 2 f_equal; ring.
Qed.

Lemma lit_kind_app a b acc : Forall (fun c => is_digit c = true) a -> lit_kind acc (a ++ b) = lit_kind acc b.
Proof.
  induction a as [|c a IH]; intros H; [reflexivity|]. inversion H; subst. cbn [app lit_kind].
  assert ((c =? 46) = false) as ->.
  { unfold is_digit in H2. apply andb_true_iff in H2. destruct H2 as [H2 _]. apply Z.leb_le in H2. apply Z.eqb_neq. lia. }
  rewrite H2. cbn [orb]. apply IH; auto.
Qed.

Lemma real_text_kind (neg : bool) ip fp : 0 <= ip -> Forall (fun c => is_digit c = true) fp ->
  lit_kind false ((if neg then [45] else []) ++ dec ip ++ [46] ++ fp) = Some true.
Proof.
  intros Hi Hf. destruct (dec_spec ip Hi) as (D1 & _ & _).
  assert (H : lit_kind false (dec ip ++ [46] ++ fp) = Some true).
  { rewrite lit_kind_app; auto. cbn [app lit_kind]. change (46 =? 46) with true. cbn match. apply lit_kind_digits; auto. }
  destruct neg; cbn [app]; auto. 
Qed.

Lemma real_text_regular neg u : 0 <= u -> Forall (fun c => is_regular c = true) (ftext neg u) /\ ftext neg u <> []
   /\ match ftext neg u with c :: _ => is_digit c || (c =? 45) = true | [] => False end.
Proof.
  intro Hu. assert (Hd : 0 <= u / 10 ^ 6) by (apply Z.div_pos; lia).
  destruct (dec_spec _ Hd) as (D1 & D2 & D3). pose proof (dec_regular _ Hd) as D4.
  assert (Hh : forall r, match dec (u / 10 ^ 6) ++ r with c :: _ => is_digit c || (c =? 45) = true | [] => False end).
  { intro r. destruct (dec (u / 10 ^ 6)); [congruence|]. inversion D1; subst. cbn [app]. rewrite H1. reflexivity. }
  destruct (ftext_spec neg u Hu) as [[H1 ->]|(j & f & Hj & H1 & H2 & H3 & ->)].
  - split; [|split].
    + apply Forall_app; split; auto. destruct neg; repeat constructor.
    + intro A. apply app_eq_nil in A. destruct A; congruence.
    + destruct neg; [reflexivity|]. specialize (Hh []). rewrite app_nil_r in Hh. exact Hh.
  - split; [|split].
    + apply Forall_app; split; [destruct neg; repeat constructor|]. apply Forall_app; split; auto.
      constructor; [reflexivity|]. destruct (fixed_digits_spec j f H3) as [F _].
      eapply Forall_impl; [|exact F]. apply digit_regular.
    + intro A. apply app_eq_nil in A. destruct A as [_ A]. apply app_eq_nil in A. destruct A; congruence.
    + destruct neg; [reflexivity|]. apply Hh.
Qed.

(** * What reading a formatted real gives *)
Lemma ftext_read neg u : 0 <= u ->
  (u mod 10 ^ 6 = 0 /\ lit_kind false (ftext neg u) = Some false /\
     from_chars_int (ftext neg u) =
       (let v := (if neg then -1 else 1) * (u / 10 ^ 6) in if int64_ok v then Some v else None)) \/
  (exists j f, (1 <= j <= 6)%nat /\ f mod 10 <> 0 /\ u = (u / 10 ^ 6 * 10 ^ Z.of_nat j + f) * 10 ^ Z.of_nat (6 - j) /\
     0 <= f < 10 ^ Z.of_nat j /\
     lit_kind false (ftext neg u) = Some true /\
     from_chars_real (ftext neg u) = Some ((if neg then -1 else 1) * (u / 10 ^ 6 * 10 ^ Z.of_nat j + f), j)).
Proof.
  intro Hu. assert (Hd : 0 <= u / 10 ^ 6) by (apply Z.div_pos; lia).
  destruct (dec_spec _ Hd) as (D1 & D2 & D3).
  destruct (ftext_spec neg u Hu) as [[H1 ->]|(j & f & Hj & H1 & H2 & H3 & ->)].
  - left. split; auto. split.
    + destruct neg; cbn [app]; [cbn [lit_kind]; change (45 =? 46) with false; cbn match|];
        [cbn [is_digit]|]; apply lit_kind_digits; auto.
    + unfold from_chars_int. destruct neg; cbn [app].
      * change (45 =? 45) with true. cbn match. rewrite span_digits_all by auto.
        destruct (dec (u / 10 ^ 6)) eqn:E; [congruence|]. rewrite D2. cbv zeta.
        replace (-1 * (u / 10 ^ 6)) with (- (u / 10 ^ 6)) by ring. reflexivity.
      * pose proof (digit_not_minus _ D1) as H4. destruct (dec (u / 10 ^ 6)) eqn:E; [congruence|]. rewrite H4.
        rewrite span_digits_all by auto. rewrite D2. cbv zeta. rewrite Z.mul_1_l. reflexivity.
  - right. exists j, f. destruct (fixed_digits_spec j f H3) as (F1 & F2 & F3).
    repeat split; auto; try lia.
    + pose proof (Z.div_mod u (10 ^ 6) ltac:(lia)) as Q. rewrite Q at 1. rewrite H1.
      assert (10 ^ 6 = 10 ^ Z.of_nat j * 10 ^ Z.of_nat (6 - j)) as E.
      { rewrite <- Z.pow_add_r by lia. f_equal. lia. }
      rewrite E at 1. rewrite Z.mul_add_distr_r. f_equal. ring.
    + apply real_text_kind; auto.
    + rewrite from_chars_real_dot by auto. rewrite F2, F3. reflexivity.
Qed.

(** A real in canonical form: at most six decimals, the last one not zero. *)
Definition canon_real (m : Z) (k : nat) : Prop := (1 <= k <= 6)%nat /\ m mod 10 <> 0.

Lemma micro_canon m k : (k <= 6)%nat -> micro m k = Z.abs m * 10 ^ Z.of_nat (6 - k).
Proof.
  intro Hk. unfold micro, round_div.
  assert (E : 10 ^ 6 = 10 ^ Z.of_nat (6 - k) * 10 ^ Z.of_nat k).
  { rewrite <- Z.pow_add_r by lia. f_equal. lia. }
  assert (P : 0 < 10 ^ Z.of_nat k) by (apply Z.pow_pos_nonneg; lia).
  rewrite E, Z.mul_assoc, Z.div_mul, Z.mod_mul by lia.
  rewrite (proj2 (Z.ltb_lt (2 * 0) _)) by lia. reflexivity.
Qed.

Lemma abs_mod10 m : m mod 10 <> 0 -> Z.abs m mod 10 <> 0.
Proof.
  intros H A. apply H. destruct (Z.abs_eq_or_opp m) as [E|E]; rewrite E in A; auto.
  apply Z.mod_opp_l_z in A; [|lia]. rewrite Z.opp_involutive in A. exact A.
Qed.

Lemma mod10_pow z n : (1 <= n)%nat -> (z * 10 ^ Z.of_nat n) mod 10 = 0.
Proof.
  intro H. replace n with (S (n - 1)) by lia. rewrite Nat2Z.inj_succ, Z.pow_succ_r by lia.
  replace (z * (10 * 10 ^ Z.of_nat (n - 1))) with (z * 10 ^ Z.of_nat (n - 1) * 10) by ring.
  apply Z.mod_mul. lia.
Qed.

Lemma canon_unique a b i j : (i <= 6)%nat -> (j <= 6)%nat -> a mod 10 <> 0 -> b mod 10 <> 0 ->
  a * 10 ^ Z.of_nat (6 - i) = b * 10 ^ Z.of_nat (6 - j) -> i = j /\ a = b.
Proof.
  intros Hi Hj Ha Hb E.
  assert (L : forall a b i j, (i <= 6)%nat -> (j <= 6)%nat -> b mod 10 <> 0 ->
     a * 10 ^ Z.of_nat (6 - i) = b * 10 ^ Z.of_nat (6 - j) -> ~ (i < j)%nat).
  { clear. intros a b i j Hi Hj Hb E L. apply Hb.
    replace (6 - i)%nat with ((j - i) + (6 - j))%nat in E by lia.
    rewrite Nat2Z.inj_add, Z.pow_add_r, Z.mul_assoc in E by lia.
    assert (P : 0 < 10 ^ Z.of_nat (6 - j)) by (apply Z.pow_pos_nonneg; lia).
    apply Z.mul_reg_r in E; [|lia]. rewrite <- E. apply mod10_pow. lia. }
  assert (i = j).
  { pose proof (L a b i j Hi Hj Hb E). pose proof (L b a j i Hj Hi Ha (eq_sym E)). lia. }
  subst j. split; auto. apply Z.mul_reg_r in E; auto.
  assert (P : 0 < 10 ^ Z.of_nat (6 - i)) by (apply Z.pow_pos_nonneg; lia). lia.
Qed.

Lemma sign_abs m : (if m <? 0 then -1 else 1) * Z.abs m = m.
Proof. destruct (m <? 0) eqn:E; [apply Z.ltb_lt in E|apply Z.ltb_ge in E]; lia. Qed.

Lemma canon_real_read m k : canon_real m k ->
  lit_kind false (real_text m k) = Some true /\ from_chars_real (real_text m k) = Some (m, k).
Proof.
  intros [Hk Hm]. rewrite real_text_ftext. rewrite micro_canon by lia.
  assert (Hu : 0 <= Z.abs m * 10 ^ Z.of_nat (6 - k)).
  { apply Z.mul_nonneg_nonneg; [lia|]. apply Z.pow_nonneg. lia. }
  pose proof (abs_mod10 _ Hm) as Ha.
  destruct (ftext_read (m <? 0) _ Hu) as [(H1 & _)|(j & f & Hj & H2 & H3 & H4 & H5 & H6)].
  - exfalso. apply Ha.
    assert (E : 10 ^ 6 = 10 ^ Z.of_nat k * 10 ^ Z.of_nat (6 - k)).
    { rewrite <- Z.pow_add_r by lia. f_equal. lia. }
    assert (P : 0 < 10 ^ Z.of_nat (6 - k)) by (apply Z.pow_pos_nonneg; lia).
    assert (P2 : 0 < 10 ^ Z.of_nat k) by (apply Z.pow_pos_nonneg; lia).
    rewrite E, Z.mul_mod_distr_r in H1 by lia.
    assert (H1' : Z.abs m mod 10 ^ Z.of_nat k = 0) by nia.
    apply Z.div_exact in H1'; [|lia]. rewrite H1', Z.mul_comm. apply mod10_pow. lia.
  - split; auto. rewrite H6.
    set (u := Z.abs m * 10 ^ Z.of_nat (6 - k)) in *.
    assert (Hf : (u / 10 ^ 6 * 10 ^ Z.of_nat j + f) mod 10 <> 0).
    { intro A. apply H2. rewrite Z.add_mod in A by lia. rewrite mod10_pow in A by lia.
      rewrite Z.add_0_l, Z.mod_mod in A by lia. exact A. }
    destruct (canon_unique _ _ k j ltac:(lia) ltac:(lia) Ha Hf H3) as [-> E].
    rewrite <- E, sign_abs. reflexivity.
Qed.
