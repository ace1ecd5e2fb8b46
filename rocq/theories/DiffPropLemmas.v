(** Lemmas for the theorems on names and difference encodings. *)
From Coq Require Import Lia String.
From Verif Require Import Base TokModel ObjSpec CodeModel CodeSpec CodeProofs CodePropLemmas FontModel DiffTables DiffModel DiffSpec DiffProofs ChainProofs.
Local Open Scope Z_scope.

(** ** Names *)
Definition same_res (r : res Z) (cp : Z) : bool := match r with Ok v => v =? cp | _ => false end.
Lemma same_res_iff r cp : same_res r cp = true <-> r = Ok cp.
Proof. destruct r; cbn; split; try discriminate; [intros E; apply Z.eqb_eq in E; congruence|intros E; apply ok_inj in E; subst; apply Z.eqb_refl]. Qed.
Definition memb (x : Z) (l : list Z) : bool := existsb (Z.eqb x) l.
Lemma memb_iff x l : memb x l = true <-> In x l.
Proof. unfold memb. rewrite existsb_exists. split; [intros (y & I & E); apply Z.eqb_eq in E; subst; exact I|intros I; exists x; split; [exact I|apply Z.eqb_refl]]. Qed.
Definition known : list Z := map fst points_table ++ map fst names_table.
Lemma known_exact : forallb (fun cp => Bool.eqb (same_res (name_point (point_name cp)) cp) (negb (memb cp lost))) known = true.
Proof. vm_compute. reflexivity. Qed.
Lemma known_low : forallb (fun cp => (0 <=? cp) && (cp <? 65536)) known = true.
Proof. vm_compute. reflexivity. Qed.
Lemma lost_known : forallb (fun cp => memb cp known) lost = true.
Proof. vm_compute. reflexivity. Qed.
Lemma unknown_name cp : ~ In cp known -> point_name cp = uni_name cp.
Proof.
  intros N. unfold point_name. rewrite (name_of_none points_table), (name_of_none names_table); [reflexivity| |]; intros I; apply N; apply in_or_app; [right|left]; exact I.
Qed.
Lemma four_digits n : 0 <= n < 65536 -> four_point (n / 16 ^ 3 mod 16) (n / 16 ^ 2 mod 16) (n / 16 ^ 1 mod 16) (n / 16 ^ 0 mod 16) = n.
Proof.
  intros B. unfold four_point. change (16 ^ 3) with (16 * 16 * 16). change (16 ^ 2) with (16 * 16). change (16 ^ 1) with 16. change (16 ^ 0) with 1. rewrite Z.div_1_r, <- !Z.div_div by lia.
  pose proof (Z.div_mod n 16 ltac:(lia)). pose proof (Z.div_mod (n / 16) 16 ltac:(lia)). pose proof (Z.div_mod (n / 16 / 16) 16 ltac:(lia)).
  assert (0 <= n / 16 / 16 / 16 < 16) by (rewrite !Z.div_div by lia; split; [apply Z.div_pos; lia|apply Z.div_lt_upper_bound; lia]). rewrite (Z.mod_small (n / 16 / 16 / 16) 16) by lia. lia.
Qed.
Lemma low_four n : 0 <= n < 65536 -> hex_width n = 4%nat.
Proof.
  intros B. unfold hex_width. assert (Z.log2 n < 16 \/ n = 0) by (destruct (Z.eq_dec n 0); [right; assumption|left; apply Z.log2_lt_pow2; lia]). destruct H as [H| ->]; [|reflexivity].
  pose proof (Z.log2_nonneg n). assert (Z.log2 n / 4 < 4) by (apply Z.div_lt_upper_bound; lia). rewrite Z.max_l by lia. reflexivity.
Qed.
Lemma uni_reads n : 0 <= n < 65536 -> name_point (uni_name n) = Ok n.
Proof.
  intros B. unfold uni_name. rewrite (low_four n B). cbn [low_hex Z.of_nat Pos.of_succ_nat Pos.succ].
  assert (D : forall k, digit_of (low_digit (n / k mod 16)) = n / k mod 16) by (intros k; apply digit_low; apply Z.mod_pos_bound; lia).
  assert (P : forall k, 0 <= n / k mod 16 < 16) by (intros k; apply Z.mod_pos_bound; lia).
  rewrite uni_four_general; rewrite !D; try apply P. rewrite (four_digits n B). reflexivity.
Qed.
Lemma names_exact cp : 0 <= cp < 65536 -> name_point (point_name cp) = Ok cp <-> ~ In cp lost.
Proof.
  intros B. destruct (in_dec Z.eq_dec cp known) as [I|N].
  - pose proof (proj1 (forallb_forall _ _) known_exact cp I) as K. cbv beta in K. apply eqb_prop in K. rewrite <- same_res_iff, K, <- memb_iff. destruct (memb cp lost); cbn; split; congruence.
  - rewrite (unknown_name _ N), (uni_reads _ B). split; [|reflexivity]. intros _ L. apply N. apply memb_iff. exact (proj1 (forallb_forall _ _) lost_known cp L).
Qed.
(** *** Code points of five digits and more *)
Definition value (base : Z) (ds : list Z) (a : Z) : Z := fold_left (fun a d => a * base + d) ds a.
Lemma value_cons base d ds a : value base (d :: ds) a = value base ds (a * base + d).
Proof. reflexivity. Qed.
Lemma value_mono ds : Forall (fun d => 0 <= d) ds -> forall a, 0 <= a -> a <= value 16 ds a.
Proof. induction 1 as [|d ds D F IH]; intros a A; [cbn; lia|]. cbn. etransitivity; [|apply IH; lia]. lia. Qed.
Lemma value_less xs : Forall (fun x => 0 <= digit_of x) xs -> forall a b, 0 <= a < b -> value 10 (leading 10 xs) a < value 16 (map digit_of xs) b.
Proof.
  induction 1 as [|x xs D F IH]; intros a b B; [cbn; lia|]. cbn [leading map]. destruct (Z.ltb_spec (digit_of x) 10).
  - cbn. apply IH. lia.
  - change (value 10 [] a) with a. assert (X : b * 16 + digit_of x <= value 16 (map digit_of xs) (b * 16 + digit_of x)) by (apply value_mono; [apply Forall_map; exact F|lia]). rewrite value_cons. lia.
Qed.
Lemma value_starts x y xs : Forall (fun x => 0 <= digit_of x) (x :: y :: xs) -> 1 <= digit_of x -> value 10 (leading 10 (x :: y :: xs)) 0 < value 16 (map digit_of (x :: y :: xs)) 0.
Proof.
  intros F B. assert (F1 : 0 <= digit_of y) by (inversion F as [|? ? ? G]; inversion G; assumption). assert (F2 : Forall (fun x => 0 <= digit_of x) xs) by (inversion F as [|? ? ? G]; inversion G; assumption).
  assert (X : forall b, 0 <= b -> b <= value 16 (map digit_of xs) b) by (intros b Y; apply value_mono; [apply Forall_map; exact F2|lia]).
  cbn [leading map]. destruct (Z.ltb_spec (digit_of x) 10); [|rewrite !value_cons; specialize (X ((0 * 16 + digit_of x) * 16 + digit_of y) ltac:(lia)); change (value 10 [] 0) with 0; lia].
  destruct (Z.ltb_spec (digit_of y) 10).
  - cbn [value fold_left]. apply (value_less xs F2). lia.
  - rewrite !value_cons. specialize (X ((0 * 16 + digit_of x) * 16 + digit_of y) ltac:(lia)). change (value 10 [] (0 * 10 + digit_of x)) with (0 * 10 + digit_of x). lia.
Qed.
Lemma low_digits w n : map digit_of (low_hex w n) = map (fun k => n / 16 ^ Z.of_nat k mod 16) (rev (seq 0 w)) /\ Forall (fun x => 0 <= digit_of x < 16) (low_hex w n).
Proof.
  induction w as [|w [I1 I2]]; [split; [reflexivity|constructor]|]. cbn [low_hex]. assert (D : digit_of (low_digit (n / 16 ^ Z.of_nat w mod 16)) = n / 16 ^ Z.of_nat w mod 16) by (apply digit_low; apply Z.mod_pos_bound; lia).
  rewrite seq_S, rev_app_distr. cbn [map rev app plus]. rewrite D, I1. split; [reflexivity|]. constructor; [rewrite D; apply Z.mod_pos_bound; lia|exact I2].
Qed.
Lemma low_value n : forall w, 0 <= n -> value 16 (map digit_of (low_hex w n)) 0 = n mod 16 ^ Z.of_nat w.
Proof.
  intros w N. assert (G : forall w a, 0 <= a -> value 16 (map digit_of (low_hex w n)) a = a * 16 ^ Z.of_nat w + n mod 16 ^ Z.of_nat w); [|rewrite G by lia; lia].
  clear w. induction w as [|w IH]; intros a A; [cbn; rewrite Z.mod_1_r; lia|]. cbn [low_hex map]. rewrite digit_low by (apply Z.mod_pos_bound; lia). cbn [value fold_left]. fold (value 16 (map digit_of (low_hex w n)) (a * 16 + n / 16 ^ Z.of_nat w mod 16)).
  pose proof (Z.mod_pos_bound (n / 16 ^ Z.of_nat w) 16 ltac:(lia)). rewrite IH by lia. assert (P : 16 ^ Z.of_nat (S w) = 16 ^ Z.of_nat w * 16) by (rewrite Nat2Z.inj_succ, Z.pow_succ_r by lia; lia). rewrite P.
  assert (0 < 16 ^ Z.of_nat w) by (apply Z.pow_pos_nonneg; lia). rewrite (Z.rem_mul_r n (16 ^ Z.of_nat w) 16) by lia. lia.
Qed.
Lemma width_bounds n : 65536 <= n -> exists w, hex_width n = S (S (S (S (S w)))) /\ 16 ^ Z.of_nat (S (S (S (S w)))) <= n < 16 ^ Z.of_nat (S (S (S (S (S w))))).
Proof.
  intros B. assert (L : 16 <= Z.log2 n) by (apply Z.log2_le_pow2; lia). assert (D : 4 <= Z.log2 n / 4) by (apply Z.div_le_lower_bound; lia). unfold hex_width. rewrite Z.max_r by lia.
  exists (Z.to_nat (Z.log2 n / 4 - 4)). split; [lia|]. pose proof (Z.log2_spec n ltac:(lia)) as [S1 S2]. change 16 with (2 ^ 4). rewrite <- !Z.pow_mul_r by lia. pose proof (Z.div_mod (Z.log2 n) 4 ltac:(lia)) as DM. pose proof (Z.mod_pos_bound (Z.log2 n) 4 ltac:(lia)). split.
  - etransitivity; [|exact S1]. apply Z.pow_le_mono_r; lia.
  - eapply Z.lt_le_trans; [exact S2|]. apply Z.pow_le_mono_r; lia.
Qed.
Lemma high_lost cp : 65536 <= cp -> name_point (point_name cp) <> Ok cp.
Proof.
  intros B. rewrite unknown_name by (intros I; pose proof (proj1 (forallb_forall _ _) known_low cp I) as K; cbv beta in K; apply andb_prop in K; destruct K as [_ K]; apply Z.ltb_lt in K; lia).
  destruct (width_bounds cp B) as (w & EW & W1 & W2). unfold uni_name. rewrite EW. destruct (low_digits (S (S (S (S (S w))))) cp) as [_ LD]. pose proof (low_value cp (S (S (S (S (S w))))) ltac:(lia)) as LV. rewrite Z.mod_small in LV by lia.
  assert (L : length (low_hex (S (S (S (S (S w))))) cp) = S (S (S (S (S w))))) by (clear; generalize (S (S (S (S (S w))))); intros m; induction m as [|m IH]; [reflexivity|]; cbn [low_hex length]; rewrite IH; reflexivity).
  unfold name_point. rewrite point_hex by (eapply Forall_impl; [|exact LD]; cbv beta; intros; lia). set (xs := low_hex (S (S (S (S (S w))))) cp) in *. change (firstn 3 (bs "uni" ++ xs)) with (bs "uni"). rewrite beq_refl. change (skipn 3 (bs "uni" ++ xs)) with xs.
  destruct (Z.eqb_spec (Z.of_nat (length xs)) 4); [lia|]. cbv iota. assert (H1 : exists x y r, xs = x :: y :: r /\ 1 <= digit_of x).
  { unfold xs. set (v := S (S (S w))) in *. cbn [low_hex]. eexists _, _, _. split; [reflexivity|]. rewrite digit_low by (apply Z.mod_pos_bound; lia).
    assert (P : 16 ^ Z.of_nat (S (S v)) = 16 * 16 ^ Z.of_nat (S v)) by (rewrite (Nat2Z.inj_succ (S v)), Z.pow_succ_r by lia; reflexivity). assert (0 < 16 ^ Z.of_nat (S v)) by (apply Z.pow_pos_nonneg; lia).
    rewrite Z.mod_small; [apply Z.div_le_lower_bound; lia|]. split; [apply Z.div_pos; lia|apply Z.div_lt_upper_bound; lia]. }
  destruct H1 as (x & y & r & EX & D1). rewrite EX in *. assert (V : value 10 (leading 10 (x :: y :: r)) 0 < cp) by (rewrite <- LV; apply value_starts; [eapply Forall_impl; [|exact LD]; cbv beta; intros; lia|exact D1]).
  unfold from_chars_unsigned. fold (value 10 (leading 10 (x :: y :: r)) 0). destruct (leading 10 (x :: y :: r)) eqn:EL; [discriminate|]. unfold value in V. destruct (_ <? 2 ^ 32); [|discriminate]. intros E. apply ok_inj in E. lia.
Qed.
Lemma listed : forallb (fun p => same_res (name_point (snd p)) (fst p)) names_table = true.
Proof. vm_compute. reflexivity. Qed.

(** ** Encodings *)
(** A base with codes of one byte, at most one code point for each *)
Definition one_byte_base (zero : Z) (b : base_map) (pts : Z -> option Z) : Prop :=
  0 <= b_first b <= b_last b + 1 /\ b_last b <= 255 /\
  forall c, 0 <= c <= 255 -> b_points b (mk_code c 1) = option_map (fun u => [u]) (pts c) /\ b_points b (mk_code c (size_of zero c)) = option_map (fun u => [u]) (pts c).
Lemma shown_fun l pts c a b : ascending 0 255 l -> shown l pts c a -> shown l pts c b -> a = b.
Proof.
  intros A [(n & I)|[N E]] [(m & J)|[M F]]; [|destruct (M _ I)|destruct (N _ J)|congruence].
  apply (find_in _ _ _ _ _ A) in I. apply (find_in _ _ _ _ _ A) in J. congruence.
Qed.
Lemma shown_here zero e pts c cp : ascending 0 255 (d_list e) -> one_byte_base zero (d_base e) pts -> 0 <= c <= 255 -> here zero e c = Some cp <-> shown (d_list e) pts c cp.
Proof.
  intros A (B1 & B2 & B3) C. unfold here. rewrite Z.mod_small by lia. destruct (find_diff (d_list e) c) as [[n u]|] eqn:E.
  - apply (find_in _ _ _ _ _ A) in E. split; [intros X; injection X as ->; left; eauto|]. intros [(m & I)|[N _]]; [|destruct (N _ E)]. apply (find_in _ _ _ _ _ A) in I. apply (find_in _ _ _ _ _ A) in E. congruence.
  - rewrite (proj2 (B3 c C)). assert (N : forall v, ~ In (c, v) (d_list e)) by (intros v I; apply (find_in _ _ _ _ _ A) in I; congruence). split.
    + intros X. right. split; [exact N|]. destruct (pts c); [|discriminate]. cbn in X. congruence.
    + intros [(m & I)|[_ X]]; [destruct (N _ I)|]. rewrite X. reflexivity.
Qed.
Lemma points_shown zero e pts c cp : ascending 0 255 (d_list e) -> one_byte_base zero (d_base e) pts -> 0 <= c <= 255 -> diff_points e (mk_code c 1) = Some [cp] <-> shown (d_list e) pts c cp.
Proof.
  intros A B C. rewrite <- (shown_here _ _ _ _ _ A B C). unfold diff_points, here. cbn [c_num]. destruct (Z.leb_spec 256 c); [lia|]. rewrite Z.mod_small by lia. destruct (find_diff (d_list e) c) as [[n u]|]; [split; congruence|].
  destruct B as (_ & _ & B). destruct (B c C) as [B1 B2]. rewrite B1, B2. destruct (pts c); cbn; split; congruence.
Qed.
Lemma code_iff zero e pts : ascending 0 255 (d_list e) -> one_byte_base zero (d_base e) pts -> forall cp, exists r, diff_code zero e cp = Ok r /\
  forall c, r = Some c <-> exists k, c = mk_code k (size_of zero k) /\ b_first (d_base e) <= k <= b_last (d_base e) /\ shown (d_list e) pts k cp /\ forall j, k < j <= b_last (d_base e) -> ~ shown (d_list e) pts j cp.
Proof.
  intros A B cp. pose proof B as (B1 & B2 & B3). unfold diff_code. set (n := Z.to_nat (b_last (d_base e) + 1 - b_first (d_base e))).
  assert (N : b_first (d_base e) + Z.of_nat n = b_last (d_base e) + 1) by (unfold n; lia).
  destruct (reverse_total zero e n (b_first (d_base e)) []) as [m E].
  { intros k K. rewrite (proj2 (B3 k ltac:(lia))). destruct (pts k); discriminate. }
  rewrite E. cbn [bind]. exists (option_map (fun c => mk_code c (size_of zero c)) (find_point m cp)). split; [reflexivity|]. intros c. pose proof (reverse_iff _ _ _ _ _ E cp) as R. rewrite N in R.
  assert (R2 : forall k, find_point m cp = Some k <-> b_first (d_base e) <= k <= b_last (d_base e) /\ shown (d_list e) pts k cp /\ forall j, k < j <= b_last (d_base e) -> ~ shown (d_list e) pts j cp).
  { intros k. rewrite R. split; intros (X & Y & W); (split; [lia|]); (split; [apply (shown_here zero e pts k cp A B); [lia|exact Y]|]); intros j J H; (apply (W j); [lia|]); apply (shown_here zero e pts j cp A B); try lia; exact H. }
  destruct (find_point m cp) as [k|]; cbn; split.
  - intros X. injection X as <-. exists k. split; [reflexivity|]. apply R2. reflexivity.
  - intros (k2 & -> & H). apply R2 in H. congruence.
  - discriminate.
  - intros (k2 & -> & H). apply R2 in H. discriminate.
Qed.
Lemma builtin_base zero t x : length t = 256%nat -> one_byte_base zero (builtin t x) (fun c => nth_error t (Z.to_nat c)).
Proof.
  intros L. split; [cbn; lia|]. split; [cbn; lia|]. intros c C. cbn [builtin b_points]. unfold builtin_points. cbn [c_num]. destruct (Z.leb_spec 256 c); [lia|]. split; reflexivity.
Qed.
