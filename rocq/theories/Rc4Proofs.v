(** RC4: the streams and their cache follow the key stream of RC4 *)
From Verif Require Import Base ChainProofs Rc4Model Rc4Spec.
Local Open Scope Z_scope.

Definition rel (t : list Z) (T : Z -> Z) : Prop := length t = 256%nat /\ forall i, 0 <= i < 256 -> byte_at t i = T i /\ 0 <= T i < 256.
Lemma put_nat_length l : forall i v, length (put_nat l i v) = length l.
Proof. induction l as [|x l IH]; intros [|i] v; cbn; auto. Qed.
Lemma put_nat_nth l : forall i v k, (i < length l)%nat -> nth k (put_nat l i v) 0 = if Nat.eqb k i then v else nth k l 0.
Proof. induction l as [|x l IH]; intros [|i] v k H; cbn in H; try lia; destruct k as [|k]; cbn; try reflexivity. rewrite IH by lia. reflexivity. Qed.
Lemma put_at l i v k : 0 <= i < Z.of_nat (length l) -> 0 <= k -> byte_at (put l i v) k = if k =? i then v else byte_at l k.
Proof. intros I K. unfold byte_at, put. rewrite put_nat_nth by lia. destruct (Z.eqb_spec k i) as [->|N]; [rewrite Nat.eqb_refl; reflexivity|]. destruct (Nat.eqb_spec (Z.to_nat k) (Z.to_nat i)); [lia|reflexivity]. Qed.
Lemma rel_swap t T i j : rel t T -> 0 <= i < 256 -> 0 <= j < 256 -> rel (put (put t i (byte_at t j)) j (byte_at t i)) (swap T i j).
Proof.
  intros [L R] I J. split; [unfold put; rewrite !put_nat_length; exact L|]. intros k Hk. unfold swap. rewrite !put_at by (unfold put; rewrite ?put_nat_length; lia).
  destruct (R i I) as [Ei Bi], (R j J) as [Ej Bj], (R k Hk) as [Ek Bk].
  destruct (Z.eqb_spec k i) as [->|N]; [destruct (Z.eqb_spec i j) as [->|]; split; congruence|]. destruct (Z.eqb_spec k j) as [->|N']; split; congruence.
Qed.
Lemma sched_S key n : sched key (S n) = let (T, j) := sched key n in let j' := (j + T (Z.of_nat n) + nth (n mod length key) key 0) mod 256 in (swap T (Z.of_nat n) j', j').
Proof. reflexivity. Qed.
Lemma gen_0 key : gen key 0 = (fst (sched key 256), 0, 0).
Proof. reflexivity. Qed.
Lemma gen_S key n : gen key (S n) = let '(T, a, b) := gen key n in let a' := (a + 1) mod 256 in let b' := (b + T a') mod 256 in (swap T a' b', a', b').
Proof. reflexivity. Qed.
Lemma ksa_rel key n : key <> [] -> forall k t T j, rel t T -> 0 <= j < 256 -> (k + n = 256)%nat -> sched key k = (T, j) -> rel (ksa n (Z.of_nat k) j key t) (fst (sched key (k + n))).
Proof.
  intros K. induction n as [|n IH]; intros k t T j R J B E; cbn [ksa].
  - rewrite Nat.add_0_r, E. exact R.
  - replace (Z.of_nat k + 1) with (Z.of_nat (S k)) by lia. replace (k + S n)%nat with (S k + n)%nat by lia. assert (I : 0 <= Z.of_nat k < 256) by lia. destruct R as [L R]. destruct (R _ I) as [RI RB].
    assert (JE : (j + byte_at t (Z.of_nat k) + byte_at key (Z.of_nat k mod Z.of_nat (length key))) mod 256 = (j + T (Z.of_nat k) + nth (k mod length key) key 0) mod 256).
    { rewrite RI. unfold byte_at. rewrite <- Nat2Z.inj_mod, Nat2Z.id. reflexivity. }
    rewrite JE. assert (JB := Z.mod_pos_bound (j + T (Z.of_nat k) + nth (k mod length key) key 0) 256 eq_refl).
    apply (IH (S k) _ (swap T (Z.of_nat k) ((j + T (Z.of_nat k) + nth (k mod length key) key 0) mod 256))); [apply rel_swap; [split; assumption|exact I|exact JB]|exact JB|lia|rewrite sched_S, E; reflexivity].
Qed.
Lemma schedule_rel key : key <> [] -> rel (schedule key) (fst (sched key 256)).
Proof.
  intros K. change (rel (ksa 256 (Z.of_nat 0) 0 key start_table) (fst (sched key (0 + 256)))). apply (ksa_rel key 256 K 0 start_table (fun i => i) 0); [|lia|reflexivity|reflexivity].
  split; [unfold start_table; rewrite map_length, seq_length; reflexivity|]. intros i I. split; [|exact I]. unfold byte_at, start_table. change 0 with (Z.of_nat 0) at 1. rewrite map_nth, seq_nth by lia. lia.
Qed.
Definition srel (s : rc4) (key : list Z) (n : nat) : Prop := let '(T, a, b) := gen key n in rel (tab s) T /\ ra s = a /\ rb s = b /\ 0 <= a < 256 /\ 0 <= b < 256.
Lemma crypt_rel key data : forall s n, srel s key n -> exists s', crypt s data = (rc4_from key n data, s') /\ srel s' key (n + length data).
Proof.
  induction data as [|c data IH]; intros s n R; cbn [crypt rc4_from length].
  - rewrite Nat.add_0_r. eauto.
  - unfold srel in R. destruct (gen key n) as [[T a] b] eqn:G. destruct R as ([L R] & -> & -> & A & B).
    assert (A' := Z.mod_pos_bound (a + 1) 256 eq_refl). set (a' := (a + 1) mod 256) in *. destruct (R a' A') as [Ea Ba]. rewrite Ea. assert (B' := Z.mod_pos_bound (b + T a') 256 eq_refl). set (b' := (b + T a') mod 256) in *. rewrite <- Ea.
    pose proof (rel_swap (tab s) T a' b' (conj L R) A' B') as RS. set (m := put (put (tab s) a' (byte_at (tab s) b')) b' (byte_at (tab s) a')) in *.
    assert (GS : gen key (S n) = (swap T a' b', a', b')) by (rewrite gen_S, G; reflexivity).
    assert (SR : srel (mk_rc4 m a' b') key (S n)) by (unfold srel; rewrite GS; cbn [tab ra rb]; auto).
    destruct (IH (mk_rc4 m a' b') (S n) SR) as (s' & E & R'). rewrite E. exists s'. split; [|replace (n + S (length data))%nat with (S n + length data)%nat by lia; exact R'].
    f_equal. f_equal. f_equal. unfold key_byte. rewrite GS. destruct RS as [_ RS]. destruct (RS a' A') as [-> _], (RS b' B') as [-> _]. apply RS, Z.mod_pos_bound. reflexivity.
Qed.
Lemma rc4_from_app key a : forall n b, rc4_from key n (a ++ b) = rc4_from key n a ++ rc4_from key (n + length a) b.
Proof. induction a as [|x a IH]; intros n b; cbn [app rc4_from length]; [rewrite Nat.add_0_r; reflexivity|]. rewrite IH. replace (S n + length a)%nat with (n + S (length a))%nat by lia. reflexivity. Qed.
Lemma rc4_from_length key a : forall n, length (rc4_from key n a) = length a.
Proof. induction a as [|x a IH]; intros n; cbn; auto. Qed.
Lemma rc4_twice key a : forall n, rc4_from key n (rc4_from key n a) = a.
Proof. induction a as [|x a IH]; intros n; cbn [rc4_from]; [reflexivity|]. rewrite IH, Z.lxor_assoc, Z.lxor_nilpotent, Z.lxor_0_r. reflexivity. Qed.
Lemma rc4_firstn key a : forall n k, rc4_from key n (firstn k a) = firstn k (rc4_from key n a).
Proof. induction a as [|x a IH]; intros n [|k]; cbn; try reflexivity. rewrite IH. reflexivity. Qed.
Lemma fresh_srel key : key <> [] -> srel (mk_rc4 (schedule key) 0 0) key 0.
Proof. intros K. unfold srel. rewrite gen_0. cbn [tab ra rb]. split; [apply schedule_rel, K|]. lia. Qed.
Lemma rc4_string_ok key data : key <> [] -> rc4_string key data = Ok (rc4_from key 0 data).
Proof. intros K. unfold rc4_string. destruct key as [|x key]; [congruence|]. destruct (crypt_rel (x :: key) data _ 0%nat (fresh_srel (x :: key) K)) as (s' & E & _). rewrite E. reflexivity. Qed.

(** ** The cache *)
Definition cache_ok (L : nat) (c : cache) : Prop := length (ckey c) = 16%nat /\ (firstn L (ckey c) = repeat 0 L \/ clast c = schedule (firstn L (ckey c))).
Lemma new_stream_ok L c key : cache_ok L c -> length key = L -> (1 <= L <= 16)%nat -> key <> repeat 0 L ->
  let (s, c') := new_stream c key in srel s key 0 /\ cache_ok L c'.
Proof.
  intros [LC C] LK B NZ. assert (K : key <> []) by (intros ->; cbn in LK; lia). unfold new_stream. rewrite LK. destruct (beq key (firstn L (ckey c))) eqn:E.
  - apply beq_eq in E. split; [|split; assumption]. destruct C as [C|C]; [congruence|]. rewrite C, <- E. apply fresh_srel, K.
  - split; [apply fresh_srel, K|]. split; cbn [ckey clast]; [rewrite app_length, skipn_length, LC; lia|]. right. f_equal. rewrite firstn_app, firstn_all2 by lia. replace (L - length key)%nat with 0%nat by lia. rewrite firstn_O, app_nil_r. reflexivity.
Qed.
