(** RC4: histories of streams *)
From Verif Require Import Base ChainProofs Rc4Model Rc4Spec Rc4Proofs.
Local Open Scope Z_scope.

Lemma out_of_cons k x r : out_of k (x :: r) = (if Nat.eqb (fst x) k then snd x else []) ++ out_of k r.
Proof. unfold out_of. cbn [filter]. destruct (Nat.eqb (fst x) k); reflexivity. Qed.
Lemma out_of_app k a b : out_of k (a ++ b) = out_of k a ++ out_of k b.
Proof. induction a as [|x a IH]; [reflexivity|]. cbn [app]. rewrite !out_of_cons, IH, app_assoc. reflexivity. Qed.
Lemma nth_set_same l k s s0 : nth_error l k = Some s0 -> nth_error (set_stream l k s) k = Some s.
Proof. intros H. unfold set_stream. assert (L : (k < length l)%nat) by (apply nth_error_Some; congruence). rewrite nth_error_app2 by (rewrite firstn_length; lia). rewrite firstn_length. replace (k - Nat.min k (length l))%nat with 0%nat by lia. reflexivity. Qed.
Lemma nth_set_other l k s j s0 : nth_error l k = Some s0 -> j <> k -> nth_error (set_stream l k s) j = nth_error l j.
Proof.
  intros H N. unfold set_stream. assert (L : (k < length l)%nat) by (apply nth_error_Some; congruence). assert (F : length (firstn k l) = k) by (rewrite firstn_length; lia).
  rewrite <- (firstn_skipn k l) at 3. destruct (Nat.lt_ge_cases j k).
  - rewrite !nth_error_app1 by lia. reflexivity.
  - rewrite !nth_error_app2 by lia. rewrite F. destruct (j - k)%nat as [|m] eqn:E; [lia|]. cbn [nth_error].
    assert (SK : skipn k l = s0 :: skipn (S k) l). { clear -H. revert k H. induction l as [|x l IH]; intros [|k] H; try discriminate; [injection H as ->; reflexivity|]. cbn [skipn] in *. rewrite IH by exact H. reflexivity. } rewrite SK. reflexivity.
Qed.
Lemma set_length l k s s0 : nth_error l k = Some s0 -> length (set_stream l k s) = length l.
Proof. intros H. assert (L : (k < length l)%nat) by (apply nth_error_Some; congruence). unfold set_stream. rewrite app_length, firstn_length. cbn [length]. rewrite skipn_length. lia. Qed.
Lemma do_op_cache L e o : cache_ok L (ecache e) -> (1 <= L <= 16)%nat -> keys_ok L [o] -> cache_ok L (ecache (snd (do_op e o))).
Proof.
  intros C B K. destruct o as [key dev len|k b|k n]; cbn [do_op].
  - apply Forall_inv in K as [LK NZ]. pose proof (new_stream_ok L (ecache e) key C LK B NZ) as H. destruct (new_stream (ecache e) key) as [s c]. exact (proj2 H).
  - destruct (nth_error (estreams e) k) as [s|]; [|exact C]. destruct (crypt (sst s) b). exact C.
  - destruct (nth_error (estreams e) k) as [s|]; [|exact C]. cbv zeta. destruct (crypt (sst s) _). exact C.
Qed.
Lemma do_ops_cache L l : (1 <= L <= 16)%nat -> forall e, cache_ok L (ecache e) -> keys_ok L l -> cache_ok L (ecache (snd (do_ops e l))).
Proof.
  intros B. induction l as [|o l IH]; intros e C K; [exact C|]. cbn [do_ops]. pose proof (do_op_cache L e o C B (Forall_cons _ (Forall_inv K) (Forall_nil _))) as C'. destruct (do_op e o) as [x e']. specialize (IH e' C' (Forall_inv_tail K)). destruct (do_ops e' l). exact IH.
Qed.
Lemma do_ops_length l : forall e, length (estreams (snd (do_ops e l))) = (length (estreams e) + opens l)%nat.
Proof.
  induction l as [|o l IH]; intros e; [cbn; lia|]. cbn [do_ops]. assert (E : length (estreams (snd (do_op e o))) = (length (estreams e) + opens [o])%nat).
  { destruct o as [key dev len|k b|k n]; cbn [do_op].
    - destruct (new_stream (ecache e) key). cbn [snd estreams]. rewrite app_length. reflexivity.
    - destruct (nth_error (estreams e) k) as [s|] eqn:N; [|cbn; lia]. destruct (crypt (sst s) b). cbn [snd estreams]. rewrite (set_length _ _ _ _ N). cbn. lia.
    - destruct (nth_error (estreams e) k) as [s|] eqn:N; [|cbn; lia]. cbv zeta. destruct (crypt (sst s) _). cbn [snd estreams]. rewrite (set_length _ _ _ _ N). cbn. lia. }
  destruct (do_op e o) as [x e']. specialize (IH e'). destruct (do_ops e' l) as [r e2]. cbn [snd] in *. rewrite IH, E. unfold opens. cbn [filter]. destruct o; cbn [length]; lia.
Qed.
Lemma do_ops_app l1 : forall e l2, do_ops e (l1 ++ l2) = let (r1, e1) := do_ops e l1 in let (r2, e2) := do_ops e1 l2 in (r1 ++ r2, e2).
Proof. induction l1 as [|o l1 IH]; intros e l2; cbn [app do_ops]; [destruct (do_ops e l2); reflexivity|]. destruct (do_op e o) as [x e']. rewrite IH. destruct (do_ops e' l1) as [r1 e1]. destruct (do_ops e1 l2). reflexivity. Qed.
(** A stream that is open *)
Lemma stream_out l : forall e k s n, nth_error (estreams e) k = Some s -> srel (sst s) (skey s) n -> out_of k (fst (do_ops e l)) = rc4_from (skey s) n (fed k (sdev s) (sleft s) l).
Proof.
  induction l as [|o l IH]; intros e k s n N R; [reflexivity|]. cbn [do_ops]. destruct o as [key dev len|k' b|k' m]; cbn [do_op fed].
  - destruct (new_stream (ecache e) key) as [s' c]. specialize (IH (mk_env c (estreams e ++ [mk_stream key s' dev len])) k s n). destruct (do_ops _ l) as [r e']. cbn [fst] in *. rewrite out_of_cons. cbn [fst snd].
    rewrite IH; [destruct (Nat.eqb 0 k); reflexivity| |exact R]. cbn [estreams]. rewrite nth_error_app1 by (apply nth_error_Some; congruence). exact N.
  - destruct (nth_error (estreams e) k') as [s'|] eqn:N'.
    + destruct (Nat.eqb_spec k' k) as [->|D].
      * rewrite N in N'. injection N' as <-. destruct (crypt_rel (skey s) b (sst s) n R) as (st & E & R'). rewrite E. specialize (IH (mk_env (ecache e) (set_stream (estreams e) k (mk_stream (skey s) st (sdev s) (sleft s)))) k (mk_stream (skey s) st (sdev s) (sleft s)) (n + length b)%nat (nth_set_same _ _ _ _ N) R').
        destruct (do_ops _ l) as [r e']. cbn [fst skey sdev sleft] in *. rewrite out_of_cons. cbn [fst snd]. rewrite Nat.eqb_refl, IH, rc4_from_app. reflexivity.
      * destruct (crypt (sst s') b) as [out st]. specialize (IH (mk_env (ecache e) (set_stream (estreams e) k' (mk_stream (skey s') st (sdev s') (sleft s')))) k s n). destruct (do_ops _ l) as [r e']. cbn [fst] in *. rewrite out_of_cons. cbn [fst snd]. destruct (Nat.eqb_spec k' k); [congruence|].
        apply IH; [|exact R]. cbn [estreams]. rewrite (nth_set_other _ _ _ _ _ N') by congruence. exact N.
    + specialize (IH e k s n N R). destruct (do_ops e l) as [r e']. cbn [fst] in *. rewrite out_of_cons. cbn [fst snd]. destruct (Nat.eqb_spec k' k) as [->|D]; [congruence|exact IH].
  - destruct (nth_error (estreams e) k') as [s'|] eqn:N'.
    + destruct (Nat.eqb_spec k' k) as [->|D].
      * rewrite N in N'. injection N' as <-. cbv zeta. set (inp := firstn (Z.to_nat (Z.min m (sleft s))) (sdev s)). destruct (crypt_rel (skey s) inp (sst s) n R) as (st & E & R'). rewrite E.
        set (s2 := mk_stream (skey s) st (skipn (length inp) (sdev s)) (sleft s - Z.of_nat (length inp))). specialize (IH (mk_env (ecache e) (set_stream (estreams e) k s2)) k s2 (n + length inp)%nat (nth_set_same _ _ _ _ N) R').
        destruct (do_ops _ l) as [r e']. cbn [fst skey sdev sleft s2] in *. rewrite out_of_cons. cbn [fst snd]. rewrite Nat.eqb_refl, IH, rc4_from_app. reflexivity.
      * cbv zeta. destruct (crypt (sst s') _) as [out st]. match goal with |- context [set_stream (estreams e) k' ?x] => specialize (IH (mk_env (ecache e) (set_stream (estreams e) k' x)) k s n) end. destruct (do_ops _ l) as [r e']. cbn [fst] in *. rewrite out_of_cons. cbn [fst snd]. destruct (Nat.eqb_spec k' k); [congruence|].
        apply IH; [|exact R]. cbn [estreams]. rewrite (nth_set_other _ _ _ _ _ N') by congruence. exact N.
    + specialize (IH e k s n N R). destruct (do_ops e l) as [r e']. cbn [fst] in *. rewrite out_of_cons. cbn [fst snd]. destruct (Nat.eqb_spec k' k) as [->|D]; [congruence|exact IH].
Qed.
(** A stream that will be opened *)
Lemma history_out L l : (1 <= L <= 16)%nat -> forall e n key, cache_ok L (ecache e) -> keys_ok L l -> opened n l = Some key ->
  out_of (length (estreams e) + n) (fst (do_ops e l)) = rc4_from key 0 (inputs (length (estreams e) + n) n l).
Proof.
  intros B. induction l as [|o l IH]; intros e n key C K O; [discriminate|]. cbn [do_ops]. pose proof (do_op_cache L e o C B (Forall_cons _ (Forall_inv K) (Forall_nil _))) as C'.
  destruct o as [key' dev len|k' b|k' m]; cbn [do_op opened inputs] in *.
  - apply Forall_inv in K as H. destruct H as [LK NZ]. pose proof (new_stream_ok L (ecache e) key' C LK B NZ) as H. destruct (new_stream (ecache e) key') as [s c]. destruct H as [R _]. cbn [snd ecache] in C'. set (e1 := mk_env c (estreams e ++ [mk_stream key' s dev len])) in *.
    destruct n as [|n].
    + injection O as ->. pose proof (stream_out l e1 (length (estreams e) + 0) (mk_stream key s dev len) 0) as X. cbn [skey sdev sleft sst] in X. destruct (do_ops e1 l) as [r e']. cbn [fst] in *. rewrite out_of_cons. cbn [fst snd]. rewrite X; [destruct (Nat.eqb 0 (length (estreams e) + 0)); reflexivity| |exact R]. cbn [e1 estreams]. rewrite nth_error_app2 by lia. replace (length (estreams e) + 0 - length (estreams e))%nat with 0%nat by lia. reflexivity.
    + specialize (IH e1 n key C' (Forall_inv_tail K) O). cbn [e1 estreams] in IH. rewrite app_length in IH. cbn [length] in IH. replace (length (estreams e) + S n)%nat with (length (estreams e) + 1 + n)%nat by lia. fold e1 in IH. destruct (do_ops e1 l) as [r e']. cbn [fst] in *. rewrite out_of_cons. cbn [fst snd]. rewrite IH. destruct (Nat.eqb 0 (length (estreams e) + 1 + n)); reflexivity.
  - destruct (nth_error (estreams e) k') as [s'|] eqn:N'.
    + destruct (crypt (sst s') b) as [out st]. match goal with |- context [set_stream (estreams e) k' ?x] => set (s2 := x) in * end. specialize (IH (mk_env (ecache e) (set_stream (estreams e) k' s2)) n key C (Forall_inv_tail K) O). cbn [estreams] in IH. rewrite (set_length _ _ _ _ N') in IH. destruct (do_ops _ l) as [r e']. cbn [fst] in *. rewrite out_of_cons. cbn [fst snd]. destruct (Nat.eqb_spec k' (length (estreams e) + n)) as [->|D]; [|exact IH]. assert (X : (length (estreams e) + n < length (estreams e))%nat) by (apply nth_error_Some; congruence). lia.
    + specialize (IH e n key C (Forall_inv_tail K) O). destruct (do_ops e l) as [r e']. cbn [fst] in *. rewrite out_of_cons. cbn [fst snd]. destruct (Nat.eqb k' _); exact IH.
  - destruct (nth_error (estreams e) k') as [s'|] eqn:N'.
    + cbv zeta in *. destruct (crypt (sst s') _) as [out st]. match goal with |- context [set_stream (estreams e) k' ?x] => set (s2 := x) in * end. specialize (IH (mk_env (ecache e) (set_stream (estreams e) k' s2)) n key C (Forall_inv_tail K) O). cbn [estreams] in IH. rewrite (set_length _ _ _ _ N') in IH. destruct (do_ops _ l) as [r e']. cbn [fst] in *. rewrite out_of_cons. cbn [fst snd]. destruct (Nat.eqb_spec k' (length (estreams e) + n)) as [->|D]; [|exact IH]. assert (X : (length (estreams e) + n < length (estreams e))%nat) by (apply nth_error_Some; congruence). lia.
    + specialize (IH e n key C (Forall_inv_tail K) O). destruct (do_ops e l) as [r e']. cbn [fst] in *. rewrite out_of_cons. cbn [fst snd]. destruct (Nat.eqb k' _); exact IH.
Qed.
Lemma firstn_repeat (m n : nat) : (n <= m)%nat -> firstn n (repeat 0 m) = repeat 0 n.
Proof. revert m. induction n as [|n IH]; intros [|m] H; cbn; try reflexivity; [lia|]. rewrite IH by lia. reflexivity. Qed.
Lemma fresh_ok L : (1 <= L <= 16)%nat -> cache_ok L fresh_cache.
Proof. intros B. split; [reflexivity|]. left. apply firstn_repeat. lia. Qed.
Lemma streams_history L l k key : (1 <= L <= 16)%nat -> keys_ok L l -> opened k l = Some key ->
  out_of k (fst (do_ops (mk_env fresh_cache []) l)) = rc4_from key 0 (inputs k k l).
Proof. intros B K O. exact (history_out L l B (mk_env fresh_cache []) k key (fresh_ok L B) K O). Qed.
Lemma fed_reads k l : forall dev len, only_reads k l -> fed k dev len l = firstn (Nat.min (asked k l) (Z.to_nat len)) dev.
Proof.
  induction l as [|o l IH]; intros dev len R; [reflexivity|]. pose proof (Forall_inv R) as H. apply Forall_inv_tail in R. destruct o as [key d n|k' b|k' n]; cbn [fed asked].
  - apply IH, R.
  - destruct (Nat.eqb_spec k' k) as [E|D]; [contradiction|]. apply IH, R.
  - destruct (Nat.eqb_spec k' k) as [E|D]; [|apply IH, R]. cbv zeta. rewrite (IH _ _ R). rewrite firstn_length. set (a := asked k l). set (m := Nat.min (Z.to_nat (Z.min n len)) (length dev)).
    assert (E1 : firstn (Z.to_nat (Z.min n len)) dev = firstn m dev). { unfold m. destruct (Nat.le_gt_cases (Z.to_nat (Z.min n len)) (length dev)); [rewrite Nat.min_l by lia; reflexivity|]. rewrite Nat.min_r by lia. rewrite firstn_all, firstn_all2 by lia. reflexivity. }
    rewrite E1. rewrite <- (firstn_skipn m dev) at 3. rewrite firstn_app. assert (LF : length (firstn m dev) = m) by (rewrite firstn_length; unfold m; lia). rewrite LF.
    destruct (Nat.le_gt_cases m (Nat.min (Z.to_nat n + a) (Z.to_nat len))) as [G|G]; [|unfold m in G; lia]. rewrite (firstn_all2 (firstn m dev)) by lia. f_equal.
    destruct (Nat.le_gt_cases (Z.to_nat (Z.min n len)) (length dev)) as [Q|Q].
    + assert (M : m = Z.to_nat (Z.min n len)) by (unfold m; lia). f_equal. lia.
    + assert (M : m = length dev) by (unfold m; lia). rewrite M, skipn_all, !firstn_nil. reflexivity.
Qed.
Lemma opened_app l1 : forall key dev len l2, opened (opens l1) (l1 ++ OOpen key dev len :: l2) = Some key.
Proof. induction l1 as [|o l1 IH]; intros; [reflexivity|]. destruct o; cbn [app opened]; unfold opens; cbn [filter length]; apply IH. Qed.
Lemma opened_lt n : forall l key, opened n l = Some key -> (n < opens l)%nat.
Proof. intros l. revert n. induction l as [|o l IH]; intros n key H; [discriminate|]. destruct o; cbn [opened] in H; unfold opens; cbn [filter length]; try (apply IH in H; exact H). destruct n as [|n]; [lia|]. apply IH in H. unfold opens in H. lia. Qed.
Lemma inputs_app k l1 : forall key dev len l2, inputs k (opens l1) (l1 ++ OOpen key dev len :: l2) = fed k dev len l2.
Proof. induction l1 as [|o l1 IH]; intros; [reflexivity|]. destruct o; cbn [app inputs]; unfold opens; cbn [filter length]; apply IH. Qed.
Lemma no_out l : forall e k, (length (estreams e) + opens l <= k)%nat -> out_of k (fst (do_ops e l)) = [].
Proof.
  induction l as [|o l IH]; intros e k H; [reflexivity|]. cbn [do_ops]. pose proof (do_ops_length [o] e) as LE. cbn [do_ops] in LE. assert (X : Nat.eqb (fst (fst (do_op e o))) k = true -> snd (fst (do_op e o)) = []).
  { destruct o as [key d n|k' b|k' n]; cbn [do_op].
    - destruct (new_stream (ecache e) key). reflexivity.
    - destruct (nth_error (estreams e) k') as [s|] eqn:N; [|reflexivity]. destruct (crypt (sst s) b). cbn [fst snd]. intros E. apply Nat.eqb_eq in E. assert ((k' < length (estreams e))%nat) by (apply nth_error_Some; congruence). lia.
    - destruct (nth_error (estreams e) k') as [s|] eqn:N; [|reflexivity]. cbv zeta. destruct (crypt (sst s) _). cbn [fst snd]. intros E. apply Nat.eqb_eq in E. assert ((k' < length (estreams e))%nat) by (apply nth_error_Some; congruence). lia. }
  destruct (do_op e o) as [x e']. cbn [fst snd] in *. specialize (IH e' k). destruct (do_ops e' l) as [r e2]. cbn [fst] in *. rewrite out_of_cons, IH; [destruct (Nat.eqb (fst x) k); [rewrite X by reflexivity; reflexivity|reflexivity]|].
  rewrite LE. unfold opens in *. cbn [filter] in *. destruct o; cbn [length] in *; lia.
Qed.
Lemma roundtrip L l1 l2 k1 key more : (1 <= L <= 16)%nat -> opened k1 l1 = Some key ->
  let c := out_of k1 (fst (do_ops (mk_env fresh_cache []) l1)) in
  let l := l1 ++ OOpen key (c ++ more) (Z.of_nat (length c)) :: l2 in
  keys_ok L l -> only_reads (opens l1) l2 ->
  out_of (opens l1) (fst (do_ops (mk_env fresh_cache []) l)) = firstn (asked (opens l1) l2) (inputs k1 k1 l1).
Proof.
  intros B O c l K R. pose proof (streams_history L l (opens l1) key B K (opened_app l1 _ _ _ l2)) as H. rewrite H. unfold l. rewrite inputs_app, (fed_reads _ _ _ _ R).
  assert (K1 : keys_ok L l1) by (unfold l, keys_ok in K; apply Forall_app in K; apply K). pose proof (streams_history L l1 k1 key B K1 O) as C. fold c in C.
  rewrite firstn_app. replace (Nat.min (asked (opens l1) l2) (Z.to_nat (Z.of_nat (length c))) - length c)%nat with 0%nat by lia. rewrite firstn_O, app_nil_r. rewrite rc4_firstn, C, rc4_twice. rewrite rc4_from_length.
  destruct (Nat.le_gt_cases (asked (opens l1) l2) (length (inputs k1 k1 l1))); [f_equal; lia|]. rewrite !firstn_all2 by lia. reflexivity.
Qed.
(** ** Zero keys *)
Lemma zero_table n : forall s, tab s = repeat 0 256 -> 0 <= ra s < 256 -> 0 <= rb s < 256 -> forall data, length data = n -> fst (crypt s data) = data.
Proof.
  induction n as [|n IH]; intros s T A B data L; [destruct data; [reflexivity|discriminate]|]. destruct data as [|c data]; [discriminate|]. cbn [crypt]. rewrite T.
  assert (Z0 : forall i, byte_at (repeat 0 256) i = 0). { intros i. unfold byte_at. rewrite nth_repeat. reflexivity. }
  assert (P0 : forall i, put (repeat 0 256) i 0 = repeat 0 256). { intros i. unfold put. clear. generalize (Z.to_nat i). generalize 256%nat. induction n as [|n IH]; intros [|m]; cbn; try reflexivity. rewrite IH. reflexivity. }
  rewrite !Z0, !P0, !Z0. specialize (IH (mk_rc4 (repeat 0 256) ((ra s + 1) mod 256) ((rb s + 0) mod 256)) eq_refl (Z.mod_pos_bound (ra s + 1) 256 eq_refl) (Z.mod_pos_bound (rb s + 0) 256 eq_refl) data). destruct (crypt _ data) as [r s']. cbn [fst] in *. rewrite Z.lxor_0_r, IH by (cbn in L; lia). reflexivity.
Qed.
Lemma zero_key_open L data : (1 <= L <= 16)%nat -> fst (crypt (fst (new_stream fresh_cache (repeat 0 L))) data) = data.
Proof.
  intros B. unfold new_stream. rewrite repeat_length. cbn [ckey fresh_cache]. rewrite firstn_repeat by lia. rewrite beq_refl. apply (zero_table (length data)); try reflexivity; cbn; lia.
Qed.
Lemma zero_key_plain L data : (1 <= L <= 16)%nat -> out_of 0 (fst (do_ops (mk_env fresh_cache []) [OOpen (repeat 0 L) [] 0; OWrite 0 data])) = data.
Proof.
  intros B. pose proof (zero_key_open L data B) as Z0. unfold do_ops, do_op. cbn [ecache estreams]. destruct (new_stream fresh_cache (repeat 0 L)) as [s c]. cbn [fst snd] in *. cbn [ecache estreams app nth_error sst]. destruct (crypt s data) as [o s2]. cbn [fst] in Z0. subst o. cbn. rewrite ?app_nil_r. reflexivity.
Qed.
