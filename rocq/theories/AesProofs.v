(** Proofs on AES strings and streams *)
From Verif Require Import Base ChainProofs AesModel AesSpec.
Local Open Scope Z_scope.

Lemma xors_length a b : length a = length b -> length (xors a b) = length a.
Proof. intros H. unfold xors. rewrite map_length, combine_length. lia. Qed.
Lemma xors_twice : forall a b, length a = length b -> xors (xors a b) b = a.
Proof.
  induction a as [|x a IH]; intros [|y b] H; try reflexivity; try discriminate. unfold xors in *. cbn. rewrite Z.lxor_assoc, Z.lxor_nilpotent, Z.lxor_0_r. f_equal. apply IH. cbn in H. lia.
Qed.
Lemma firstn_block (b : list Z) r : length b = 16%nat -> firstn 16 (b ++ r) = b.
Proof. intros L. rewrite firstn_app, L, Nat.sub_diag, firstn_O, app_nil_r. apply firstn_all2. lia. Qed.
Lemma skipn_block (b : list Z) r : length b = 16%nat -> skipn 16 (b ++ r) = r.
Proof. intros L. rewrite skipn_app, L, Nat.sub_diag, skipn_all2 by lia. reflexivity. Qed.
Lemma concat_16 l : blocks_of_16 l -> length (concat l) = (16 * length l)%nat.
Proof. induction 1; cbn; [reflexivity|]. rewrite app_length, IHForall. cbn. lia. Qed.
Lemma firstn_concat k : forall l r, blocks_of_16 l -> (k <= length l)%nat -> firstn (16 * k) (concat l ++ r) = concat (firstn k l).
Proof.
  induction k as [|k IH]; intros l r F L; [reflexivity|]. destruct l as [|b l]; [cbn in L; lia|]. inversion F as [|? ? B F']; subst. cbn [concat firstn length] in *.
  rewrite <- app_assoc, firstn_app, B. replace (16 * S k - 16)%nat with (16 * k)%nat by lia. rewrite IH by (assumption || lia). rewrite firstn_all2 by lia. reflexivity.
Qed.
Lemma skipn_concat k : forall l r, blocks_of_16 l -> (k <= length l)%nat -> skipn (16 * k) (concat l ++ r) = concat (skipn k l) ++ r.
Proof.
  induction k as [|k IH]; intros l r F L; [reflexivity|]. destruct l as [|b l]; [cbn in L; lia|]. inversion F as [|? ? B F']; subst. cbn [concat skipn length] in *.
  rewrite <- app_assoc, skipn_app, B. replace (16 * S k - 16)%nat with (16 * k)%nat by lia. rewrite IH by (assumption || lia). rewrite skipn_all2 by lia. reflexivity.
Qed.
(** A list of a length that is a multiple of 16 is made of blocks *)
Lemma make_blocks k : forall l : list Z, length l = (16 * k)%nat -> exists bs, blocks_of_16 bs /\ concat bs = l /\ length bs = k.
Proof.
  induction k as [|k IH]; intros l L; [exists []; destruct l; [repeat split; constructor|discriminate]|]. destruct (IH (skipn 16 l)) as (bs & F & C & N); [rewrite skipn_length; lia|].
  exists (firstn 16 l :: bs). split; [constructor; [rewrite firstn_length; lia|exact F]|]. cbn [concat length]. rewrite C, firstn_skipn, N. split; reflexivity.
Qed.
Lemma mod16 n : (n mod 16 < 16)%nat.
Proof. apply Nat.mod_upper_bound. lia. Qed.
Lemma padded_length data : length (padded data) = (16 * (length data / 16 + 1))%nat.
Proof. unfold padded. cbv zeta. rewrite app_length, repeat_length. pose proof (mod16 (length data)). pose proof (Nat.div_mod (length data) 16 ltac:(lia)). lia. Qed.

Section Cipher.
  Context (E D : list Z -> list Z) (ED : cipher E D).
  Lemma chain_length : forall bs p, length (chain E p bs) = length bs.
  Proof. induction bs as [|b bs IH]; intros p; cbn; [reflexivity|]. rewrite IH. reflexivity. Qed.
  Lemma chain_16 : forall bs p, blocks_of_16 bs -> length p = 16%nat -> blocks_of_16 (chain E p bs).
  Proof.
    induction bs as [|b bs IH]; intros p F P; cbn; [constructor|]. inversion F as [|? ? B F']; subst. destruct (ED (xors b p)) as [L _]; [rewrite xors_length; lia|]. constructor; [exact L|]. apply IH; assumption.
  Qed.
  Lemma last_chain_16 bs p : blocks_of_16 bs -> length p = 16%nat -> length (last (chain E p bs) p) = 16%nat.
  Proof.
    intros F P. pose proof (chain_16 bs p F P) as C. destruct (chain E p bs) as [|c cs]; [exact P|]. assert (In (last (c :: cs) p) (c :: cs)) as I.
    { destruct (exists_last (l := c :: cs) ltac:(discriminate)) as (x & y & ->). rewrite last_last. apply in_or_app. right. left. reflexivity. }
    unfold blocks_of_16 in C. rewrite Forall_forall in C. apply C, I.
  Qed.
  Lemma chain_app : forall a b p, chain E p (a ++ b) = chain E p a ++ chain E (last (chain E p a) p) b.
  Proof.
    induction a as [|x a IH]; intros b p; cbn [chain app]; [reflexivity|]. cbv zeta. rewrite IH. f_equal. f_equal. f_equal. set (c := E (xors x p)). clearbody c. destruct (chain E c a) as [|y l] eqn:Q; [reflexivity|].
    cbn [last]. clear. revert y. induction l as [|z l IH]; intros y; [reflexivity|]. cbn [last] in *. apply IH.
  Qed.
  Lemma cbc_chain : forall bs p, blocks_of_16 bs -> cbc E (length bs) p (concat bs) = concat (chain E p bs).
  Proof.
    induction bs as [|b bs IH]; intros p F; [reflexivity|]. inversion F as [|? ? B F']; subst. cbn [length cbc concat chain]. cbv zeta. rewrite firstn_block, skipn_block by exact B. rewrite IH by exact F'. reflexivity.
  Qed.
  Lemma dec_chain : forall bs p r, blocks_of_16 bs -> length p = 16%nat -> dec_blocks D (length bs) p (concat (chain E p bs) ++ r) = (concat bs, last (chain E p bs) p).
  Proof.
    induction bs as [|b bs IH]; intros p r F P; [reflexivity|]. inversion F as [|? ? B F']; subst. cbn [length dec_blocks concat chain]. cbv zeta. set (c := E (xors b p)).
    destruct (ED (xors b p)) as [L K]; [rewrite xors_length; lia|]. fold c in L, K. rewrite <- app_assoc, firstn_block, skipn_block by exact L. rewrite IH by assumption. rewrite K, xors_twice by lia. f_equal.
    destruct (chain E c bs) as [|y l]; [reflexivity|]. cbn [last]. clear. revert y. induction l as [|z l IH]; intros y; [reflexivity|]. cbn [last] in *. apply IH.
  Qed.
  (** ** Padding *)
  (** The last block of the padded data *)
  Lemma padded_split data bs : blocks_of_16 bs -> concat bs = padded data -> exists A b n, bs = A ++ [b] /\ (1 <= n <= 16)%nat /\
    b = skipn (16 * length A) data ++ repeat (Z.of_nat n) n /\ concat A = firstn (16 * length A) data /\ (length data = 16 * length A + (16 - n))%nat.
  Proof.
    intros F C. pose proof (concat_16 bs F) as L. rewrite C, padded_length in L. destruct (exists_last (l := bs)) as (A & b & ->); [intros ->; cbn [length] in L; lia|]. apply Forall_app in F as [FA FB]. inversion FB as [|? ? B _]; subst.
    rewrite app_length in L. cbn [length] in L. set (n := (16 - length data mod 16)%nat). pose proof (mod16 (length data)). pose proof (Nat.div_mod (length data) 16 ltac:(lia)) as DM. exists A, b, n. split; [reflexivity|]. split; [lia|].
    assert (LD : length data = (16 * length A + (16 - n))%nat) by lia. pose proof (concat_16 A FA) as LA. rewrite concat_app in C. cbn [concat] in C. rewrite app_nil_r in C. unfold padded in C. cbv zeta in C. fold n in C.
    assert (C1 : firstn (16 * length A) (concat A ++ b) = firstn (16 * length A) (data ++ repeat (Z.of_nat n) n)) by (rewrite C; reflexivity).
    assert (C2 : skipn (16 * length A) (concat A ++ b) = skipn (16 * length A) (data ++ repeat (Z.of_nat n) n)) by (rewrite C; reflexivity).
    rewrite firstn_app, LA, Nat.sub_diag, firstn_O, app_nil_r, firstn_all2, firstn_app in C1 by lia. replace (16 * length A - length data)%nat with 0%nat in C1 by lia. rewrite firstn_O, app_nil_r in C1.
    rewrite skipn_app, LA, Nat.sub_diag, skipn_all2, skipn_app in C2 by lia. replace (16 * length A - length data)%nat with 0%nat in C2 by lia. repeat split; assumption.
  Qed.
  Lemma last_repeat (x : Z) n : forall l, (1 <= n)%nat -> last (l ++ repeat x n) 0 = x.
  Proof. intros l N. destruct n as [|n]; [lia|]. replace (S n) with (n + 1)%nat by lia. rewrite repeat_app, app_assoc. apply last_last. Qed.
  (** The end of a decryption: the block that is left is the padding *)
  Lemma final_ok p b d n : length p = 16%nat -> (1 <= n <= 16)%nat -> b = d ++ repeat (Z.of_nat n) n -> length b = 16%nat -> final D (mk_ctx p (E (xors b p))) = Ok d.
  Proof.
    intros P N B L. destruct (ED (xors b p)) as [LE K]; [rewrite xors_length; lia|]. unfold final. cbn [pend cprev]. rewrite LE, Nat.eqb_refl, K, xors_twice by lia. cbv zeta. replace (last b 0) with (Z.of_nat n) by (rewrite B, last_repeat; [reflexivity|lia]).
    destruct (Z.ltb_spec (Z.of_nat n) 1); [lia|]. destruct (Z.ltb_spec 16 (Z.of_nat n)); [lia|]. cbn [orb]. rewrite Nat2Z.id.
    assert (LD : length d = (16 - n)%nat) by (rewrite B, app_length, repeat_length in L; lia). rewrite B. rewrite skipn_app, firstn_app, LD, Nat.sub_diag, skipn_all2, firstn_all2, firstn_O, app_nil_r by lia. cbn [app skipn].
    replace (forallb _ _) with true; [reflexivity|]. symmetry. apply forallb_forall. intros x I. apply repeat_spec in I. subst. apply Z.eqb_refl.
  Qed.
  (** ** Decrypting a run of blocks *)
  (** [R] are the blocks of data still to come, [h] of their encrypted blocks are held *)
  Lemma update_ok R p h t r : blocks_of_16 R -> length p = 16%nat -> (h <= 1)%nat -> (1 <= h + t <= length R)%nat ->
    let q := (h + t - 1)%nat in
    update D (mk_ctx p (concat (firstn h (chain E p R)))) (firstn (16 * t) (concat (skipn h (chain E p R)) ++ r)) =
    (concat (firstn q R), mk_ctx (last (chain E p (firstn q R)) p) (concat (firstn 1 (chain E (last (chain E p (firstn q R)) p) (skipn q R))))).
  Proof.
    intros F P H T q. pose proof (chain_16 R p F P) as CF. pose proof (chain_length R p) as CL. set (C := chain E p R) in *.
    unfold update. cbn [pend cprev].
    assert (CS : blocks_of_16 (skipn h C)) by (unfold blocks_of_16; rewrite <- (firstn_skipn h C) in CF; apply Forall_app in CF; apply CF).
    rewrite firstn_concat by (try exact CS; rewrite skipn_length; lia).
    assert (BUF : concat (firstn h C) ++ concat (firstn t (skipn h C)) = concat (firstn (h + t) C)).
    { rewrite <- concat_app. f_equal. rewrite <- (firstn_skipn h C) at 3. rewrite firstn_app, firstn_firstn, firstn_length. f_equal; [f_equal; lia|f_equal; lia]. }
    rewrite BUF. assert (CQ : blocks_of_16 (firstn (h + t) C)) by (unfold blocks_of_16; rewrite <- (firstn_skipn (h + t) C) in CF; apply Forall_app in CF; apply CF).
    assert (LQ : length (concat (firstn (h + t) C)) = (16 * (h + t))%nat) by (rewrite concat_16 by exact CQ; rewrite firstn_length; lia). rewrite LQ.
    replace ((16 * (h + t) - 1) / 16)%nat with q by (apply (Nat.div_unique _ _ _ 15); unfold q; lia). cbv zeta.
    assert (CC : C = chain E p (firstn q R) ++ chain E (last (chain E p (firstn q R)) p) (skipn q R)) by (rewrite <- chain_app, firstn_skipn; reflexivity).
    assert (FQ : blocks_of_16 (firstn q R)) by (unfold blocks_of_16; rewrite <- (firstn_skipn q R) in F; apply Forall_app in F; apply F).
    assert (LF : length (firstn q R) = q) by (rewrite firstn_length; lia).
    assert (SPL : firstn (h + t) C = chain E p (firstn q R) ++ firstn 1 (chain E (last (chain E p (firstn q R)) p) (skipn q R))).
    { rewrite CC at 1. rewrite firstn_app, chain_length, LF. replace (h + t - q)%nat with 1%nat by (unfold q; lia). rewrite firstn_all2 by (rewrite chain_length; unfold q in *; lia). reflexivity. }
    rewrite SPL, concat_app. replace q with (length (firstn q R)) at 1 by exact LF. rewrite dec_chain by assumption. f_equal. f_equal.
    replace (16 * q)%nat with (length (concat (chain E p (firstn q R)))) by (rewrite concat_16 by (apply chain_16; assumption); rewrite chain_length; lia). rewrite skipn_app, Nat.sub_diag, skipn_all2 by lia. reflexivity.
  Qed.
End Cipher.
