(** Proofs about the PNG and TIFF predictors. *)
From Coq Require Import String.
From Verif Require Import Base BitLemmas TokModel FilterModel FilterSpec FilterProofs.
Local Open Scope Z_scope.

Lemma pred_bytes_app a b : forall p,
  pred_bytes p (a ++ b) = do (p1, w1) <- pred_bytes p a; do (p2, w2) <- pred_bytes p1 b; Ok (p2, w1 ++ w2).
Proof.
  induction a as [|c a IH]; intro p; cbn [pred_bytes app].
  - cbn [bind]. destruct (pred_bytes p b) as [[? ?]| | |]; reflexivity.
  - destruct (pred_step p c) as [[p1 w1]| | |]; cbn [bind]; try reflexivity. rewrite IH.
    destruct (pred_bytes p1 a) as [[p2 w2]| | |]; cbn [bind]; try reflexivity.
    destruct (pred_bytes p2 b) as [[p3 w3]| | |]; cbn [bind]; try reflexivity. rewrite app_assoc. reflexivity.
Qed.

Lemma pred_step_pred p c p1 w : pred_step p c = Ok (p1, w) -> p_pred p1 = p_pred p.
Proof.
  unfold pred_step, pred_row_end. destruct (p_next p).
  - intro H. apply ok_inj in H. cbn [p_rows p_idx p_cur p_prev p_ul p_pred p_bpc p_bpp] in H.
    destruct (p_rows p <=? p_idx p); injection H as <- _; reflexivity.
  - destruct (pred_byte p c) as [[pv ul]| | |]; cbn [bind]; try discriminate.
    intro H. apply ok_inj in H. cbn [p_rows p_idx p_cur p_prev p_ul p_pred p_bpc p_bpp] in H.
    destruct (p_rows p <=? p_idx p + 1); injection H as <- _; reflexivity.
Qed.
Lemma pred_bytes_pred b : forall p p1 w, pred_bytes p b = Ok (p1, w) -> p_pred p1 = p_pred p.
Proof.
  induction b as [|c b IH]; intros p p1 w; cbn [pred_bytes].
  - intro H. apply ok_inj in H. injection H as <- _. reflexivity.
  - destruct (pred_step p c) as [[p2 w2]| | |] eqn:E; cbn [bind]; try discriminate.
    destruct (pred_bytes p2 b) as [[p3 w3]| | |] eqn:E3; cbn [bind]; try discriminate.
    intro H. apply ok_inj in H. injection H as <- _. rewrite (IH _ _ _ E3). apply (pred_step_pred _ _ _ _ E).
Qed.

(** All blocks together, for a predictor that is not the identity *)
Lemma pred_blocks pr cl bc co bl : forall p, p_pred p <> 1 ->
  f_blocks (pred_dec pr cl bc co) p bl = pred_bytes p (concat bl).
Proof.
  induction bl as [|b r IH]; intros p N; cbn [f_blocks concat]; [reflexivity|].
  cbn [f_block pred_dec]. unfold pred_block at 1. rewrite (proj2 (Z.eqb_neq _ _) N).
  rewrite pred_bytes_app. destruct (pred_bytes p b) as [[p1 w1]| | |] eqn:E; cbn [bind]; try reflexivity.
  change (mk_filt pred (pred_new pr cl bc co) pred_block (fun _ => Ok [])) with (pred_dec pr cl bc co).
  rewrite IH; [reflexivity|]. rewrite (pred_bytes_pred _ _ _ _ E). exact N.
Qed.

Lemma add_back x pv : is_byte x -> is_byte pv -> u8 (schar ((x - pv) mod 256) + schar pv) = x.
Proof.
  intros Hx Hp. unfold u8. change (2 ^ 8) with 256.
  rewrite <- Zplus_mod_idemp_l, <- Zplus_mod_idemp_r.
  rewrite !schar_mod by (auto; apply Z.mod_pos_bound; lia).
  rewrite Zplus_mod_idemp_l. replace (x - pv + pv) with x by lia. apply Z.mod_small. exact Hx.
Qed.

Lemma set_nth_mid a x v b : set_nth (length a) v (a ++ x :: b) = a ++ v :: b.
Proof. induction a as [|y a IH]; cbn; [reflexivity|]. rewrite IH. reflexivity. Qed.

Lemma skipn_nth_cons (l : list Z) : forall i, (i < length l)%nat -> skipn i l = nth i l 0 :: skipn (S i) l.
Proof.
  induction l as [|x l IH]; intros i H; [cbn in H; lia|].
  destruct i as [|i]; [reflexivity|]. cbn [skipn nth]. apply IH. cbn in H. lia.
Qed.
Lemma firstn_snoc (l : list Z) : forall i, (i < length l)%nat -> firstn (S i) l = firstn i l ++ [nth i l 0].
Proof.
  induction l as [|x l IH]; intros i H; [cbn in H; lia|].
  destruct i as [|i]; [reflexivity|]. cbn [firstn nth app]. rewrite <- IH by (cbn in H; lia). reflexivity.
Qed.

(** A row being replaced: the new bytes up to i, then the old ones *)
Definition mix (above row : list Z) (i : nat) : list Z := firstn i row ++ skipn i above.

Section Row.
Variables (above row : list Z) (n : nat).
Hypothesis La : length above = n.
Hypothesis Lr : length row = n.

Lemma mix_len i : (i <= n)%nat -> length (mix above row i) = n.
Proof. intro. unfold mix. rewrite app_length, firstn_length, skipn_length. lia. Qed.
Lemma mix_up i : (i < n)%nat -> zget (mix above row i) (Z.of_nat i) = nth i above 0.
Proof.
  intro H. unfold zget. rewrite Nat2Z.id. unfold mix.
  rewrite app_nth2 by (rewrite firstn_length; lia). rewrite firstn_length, Lr.
  replace (i - Nat.min i n)%nat with 0%nat by lia. rewrite skipn_nth_cons by lia. reflexivity.
Qed.
Lemma mix_left i j : (j < i)%nat -> (i <= n)%nat -> zget (mix above row i) (Z.of_nat j) = nth j row 0.
Proof.
  intros H H2. unfold zget. rewrite Nat2Z.id. unfold mix.
  rewrite app_nth1 by (rewrite firstn_length; lia).
  rewrite <- (firstn_skipn i row) at 2. rewrite app_nth1 by (rewrite firstn_length; lia). reflexivity.
Qed.
Lemma mix_set i : (i < n)%nat -> zset (mix above row i) (Z.of_nat i) (nth i row 0) = mix above row (S i).
Proof.
  intro H. unfold zset. rewrite Nat2Z.id. unfold mix.
  rewrite (skipn_nth_cons above i) by lia.
  replace i with (length (firstn i row)) at 1 by (rewrite firstn_length; lia).
  rewrite set_nth_mid. rewrite firstn_snoc by lia. rewrite <- app_assoc. reflexivity.
Qed.
Lemma mix_0 : mix above row 0 = above.
Proof. reflexivity. Qed.
Lemma mix_n : mix above row n = row.
Proof. unfold mix. rewrite <- Lr at 1. rewrite firstn_all. rewrite skipn_all2 by lia. apply app_nil_r. Qed.
End Row.

(** Upper-left components while a Paeth row is read: entry k holds the byte above the last visited
    position congruent to k. *)
Definition ul_inv (bpp : Z) (above ul : list Z) (i : nat) : Prop :=
  Z.of_nat (length ul) = bpp /\
  forall j, (j < i)%nat -> Z.of_nat i - bpp <= Z.of_nat j -> nth (Z.to_nat (Z.of_nat j mod bpp)) ul 0 = nth j above 0.

Lemma set_nth_len i v : forall l, length (set_nth i v l) = length l.
Proof. induction i as [|i IH]; intros [|x l]; cbn; auto. Qed.
Lemma set_nth_same i v : forall l, (i < length l)%nat -> nth i (set_nth i v l) 0 = v.
Proof. induction i as [|i IH]; intros [|x l] H; cbn in *; try lia; auto. apply IH. lia. Qed.
Lemma set_nth_other i j v : i <> j -> forall l, nth j (set_nth i v l) 0 = nth j l 0.
Proof.
  revert j. induction i as [|i IH]; intros j N [|x l]; cbn; auto.
  - destruct j; [congruence|reflexivity].
  - destruct j; [reflexivity|]. apply IH. congruence.
Qed.

Lemma ul_step bpp above ul i : 1 <= bpp -> ul_inv bpp above ul i ->
  ul_inv bpp above (zset ul (Z.of_nat i mod bpp) (nth i above 0)) (S i).
Proof.
  intros Hb [L I]. unfold zset. split; [rewrite set_nth_len; exact L|].
  intros j Hj Hr. pose proof (Z.mod_pos_bound (Z.of_nat i) bpp ltac:(lia)) as Bi.
  pose proof (Z.mod_pos_bound (Z.of_nat j) bpp ltac:(lia)) as Bj.
  destruct (Nat.eq_dec j i) as [->|Ne].
  - apply set_nth_same. lia.
  - rewrite set_nth_other; [apply I; lia|].
    intro E. apply Z2Nat.inj in E; [|lia|lia].
    assert (Z.of_nat i - Z.of_nat j <> 0) by lia.
    assert ((Z.of_nat i - Z.of_nat j) mod bpp = 0).
    { rewrite Zminus_mod, E, Z.sub_diag. apply Z.mod_0_l. lia. }
    rewrite Z.mod_small in H0 by lia. lia.
Qed.

(** Tags the decoder gets right. Sub and Paeth need whole-byte pixels. *)
Definition tag_ok (bpp tag : Z) : Prop := tag = 0 \/ tag = 2 \/ (1 <= bpp /\ (tag = 1 \/ tag = 4)).

Lemma bytes_nth l i : bytes_ok l -> is_byte (nth i l 0).
Proof.
  intro H. destruct (Nat.lt_ge_cases i (length l)).
  - unfold bytes_ok in H. rewrite Forall_forall in H. apply H. apply nth_In. exact H0.
  - rewrite nth_overflow by exact H0. unfold is_byte. lia.
Qed.
Lemma at0_byte l i : bytes_ok l -> is_byte (at0 l i).
Proof. intro H. unfold at0. destruct (i <? 0); [unfold is_byte; lia|]. apply bytes_nth. exact H. Qed.
Lemma paeth_byte a b c : is_byte a -> is_byte b -> is_byte c -> is_byte (paeth a b c).
Proof. intros. unfold paeth. destruct (_ && _); auto. destruct (_ <=? _); auto. Qed.

Lemma pred_one_byte pr bpc bpp rows tag above row ul i n :
  length above = n -> length row = n -> bytes_ok above -> bytes_ok row -> (i < n)%nat -> 0 <= bpp ->
  tag_ok bpp tag -> (tag = 4 -> ul_inv bpp above ul i) ->
  exists ul', pred_byte (mk_pred pr bpc bpp rows (tag + 10) (Z.of_nat i) false (mix above row i) ul)
        ((nth i row 0 - predict tag bpp above row (Z.of_nat i)) mod 256) = Ok (mix above row (S i), ul') /\
    length ul' = length ul /\ (tag = 4 -> ul_inv bpp above ul' (S i)).
Proof.
  intros La Lr Ba Br Hi Hb T U.
  pose proof (mix_up above row n La Lr i Hi) as Eup.
  pose proof (mix_set above row n La Lr i Hi) as Eset.
  assert (Eleft : forall cur, 1 <= bpp -> p_left (mk_pred pr bpc bpp rows cur (Z.of_nat i) false (mix above row i) ul)
                  = at0 row (Z.of_nat i - bpp)).
  { intros cur B1. unfold p_left, at0. cbn [p_idx p_bpp p_prev]. destruct (Z.of_nat i - bpp <? 0) eqn:E; [reflexivity|].
    replace (Z.of_nat i - bpp) with (Z.of_nat (Z.to_nat (Z.of_nat i - bpp))) by lia.
    rewrite (mix_left above row n La Lr) by lia. rewrite Nat2Z.id. reflexivity. }
  assert (at0 above (Z.of_nat i) = nth i above 0) as Eat.
  { unfold at0. replace (Z.of_nat i <? 0) with false by lia. rewrite Nat2Z.id. reflexivity. }
  pose proof (bytes_nth row i Br) as Bx. pose proof (bytes_nth above i Ba) as Bu.
  destruct T as [-> | [-> | [B1 [-> | ->]]]]; unfold pred_byte, predict; cbn [p_cur p_idx p_prev p_ul p_bpc p_bpp Z.add Z.eqb Pos.eqb Pos.add].
  - exists ul. rewrite Z.sub_0_r, Z.mod_small by exact Bx. rewrite Eset. split; [reflexivity|]. split; [reflexivity|discriminate].
  - exists ul. rewrite Eup, Eat. rewrite (Z.add_comm (schar (nth i above 0))). rewrite add_back by assumption. rewrite Eset.
    split; [reflexivity|]. split; [reflexivity|discriminate].
  - exists ul. rewrite (Eleft _ B1). rewrite add_back by (auto; apply at0_byte; assumption). rewrite Eset.
    split; [reflexivity|]. split; [reflexivity|discriminate].
  - destruct (U eq_refl) as [UL UI].
    replace (bpp =? 0) with false by lia. rewrite (Eleft _ B1), Eup.
    assert ((if Z.of_nat i - bpp <? 0 then 0 else zget ul (Z.of_nat i mod bpp)) = at0 above (Z.of_nat i - bpp)) as ->.
    { unfold at0, zget. destruct (Z.of_nat i - bpp <? 0) eqn:E; [reflexivity|].
      rewrite <- (UI (Z.to_nat (Z.of_nat i - bpp))) by lia. f_equal. f_equal.
      rewrite Z2Nat.id by lia. replace (Z.of_nat i - bpp) with (Z.of_nat i + (-1) * bpp) by lia.
      rewrite Z.mod_add by lia. reflexivity. }
    rewrite Eat. change paeth_close with paeth.
    rewrite add_back; [|exact Bx|apply paeth_byte; try apply at0_byte; assumption].
    rewrite Eset. eexists. split; [reflexivity|]. unfold zset at 1. rewrite set_nth_len. split; [reflexivity|].
    intros _. apply ul_step; [exact B1|]. split; assumption.
Qed.

(** A whole row *)
Lemma pred_row_from pr bpc bpp tag above row n : 
  length above = n -> length row = n -> bytes_ok above -> bytes_ok row -> 0 <= bpp -> (1 <= n)%nat ->
  tag_ok bpp tag -> forall m i ul, (i + m = n)%nat -> (1 <= m)%nat -> (tag = 4 -> ul_inv bpp above ul i) ->
  exists ul', pred_bytes (mk_pred pr bpc bpp (Z.of_nat n) (tag + 10) (Z.of_nat i) false (mix above row i) ul)
     (map (fun i => (nth i row 0 - predict tag bpp above row (Z.of_nat i)) mod 256) (seq i m))
   = Ok (mk_pred pr bpc bpp (Z.of_nat n) (tag + 10) 0 true row ul', [row]) /\ length ul' = length ul.
Proof.
  intros La Lr Ba Br Hb Hn T m. induction m as [|m IH]; intros i ul E Hm U; [lia|].
  cbn [seq map pred_bytes]. unfold pred_step at 1. cbn [p_next].
  destruct (pred_one_byte pr bpc bpp (Z.of_nat n) tag above row ul i n La Lr Ba Br ltac:(lia) Hb T U) as (ul1 & R & L1 & U1).
  rewrite R. cbn [bind p_pred p_bpc p_bpp p_rows p_cur p_idx].
  unfold pred_row_end. cbn [p_pred p_bpc p_bpp p_rows p_cur p_idx p_prev p_ul].
  destruct m as [|m].
  - replace (Z.of_nat n <=? Z.of_nat i + 1) with true by lia. cbn [seq map pred_bytes bind app].
    assert (mix above row (S i) = row) as ->.
    { replace (S i) with n by lia. apply (mix_n above row n La Lr). }
    assert (10 <=? tag + 10 = true) as ->. { destruct T as [-> | [-> | [_ [-> | ->]]]]; reflexivity. }
    exists ul1. split; [reflexivity|exact L1].
  - replace (Z.of_nat n <=? Z.of_nat i + 1) with false by lia.
    replace (Z.of_nat i + 1) with (Z.of_nat (S i)) by lia.
    destruct (IH (S i) ul1 ltac:(lia) ltac:(lia) U1) as (ul2 & R2 & L2).
    rewrite R2. cbn [bind app]. exists ul2. split; [reflexivity|lia].
Qed.

Lemma pred_row pr bpc bpp cur tag above row ul n :
  length above = n -> length row = n -> bytes_ok above -> bytes_ok row -> 0 <= bpp -> (1 <= n)%nat ->
  tag_ok bpp tag -> Z.of_nat (length ul) = bpp ->
  exists ul', pred_bytes (mk_pred pr bpc bpp (Z.of_nat n) cur 0 true above ul) (tag :: filter_row tag bpp above row)
   = Ok (mk_pred pr bpc bpp (Z.of_nat n) (tag + 10) 0 true row ul', [row]) /\ Z.of_nat (length ul') = bpp.
Proof.
  intros La Lr Ba Br Hb Hn T UL. cbn [pred_bytes]. unfold pred_step at 1. cbn [p_next p_pred p_bpc p_bpp p_rows p_cur p_idx p_prev p_ul].
  unfold pred_row_end. cbn [p_pred p_bpc p_bpp p_rows p_cur p_idx p_prev p_ul].
  replace (Z.of_nat n <=? 0) with false by lia. cbn [bind].
  assert (schar tag = tag) as ->. { destruct T as [-> | [-> | [_ [-> | ->]]]]; reflexivity. }
  unfold filter_row. rewrite Lr.
  destruct (pred_row_from pr bpc bpp tag above row n La Lr Ba Br Hb Hn T n 0%nat ul ltac:(lia) Hn) as (ul' & R & L).
  { intros _. split; [exact UL|]. intros; lia. }
  change (mix above row 0) with above in R. change (Z.of_nat 0) with 0 in R. rewrite R. cbn [bind app].
  exists ul'. split; [reflexivity|lia].
Qed.

Lemma pred_rows pr bpc bpp n rows : 0 <= bpp -> (1 <= n)%nat -> 
  Forall (fun tr => tag_ok bpp (fst tr) /\ length (snd tr) = n /\ bytes_ok (snd tr)) rows ->
  forall cur above ul, length above = n -> bytes_ok above -> Z.of_nat (length ul) = bpp ->
  exists p w, pred_bytes (mk_pred pr bpc bpp (Z.of_nat n) cur 0 true above ul) (png_rows bpp above rows) = Ok (p, w) /\
    concat w = concat (map snd rows).
Proof.
  intros Hb Hn F. induction F as [|[tag row] rows (T & Lr & Br) F IH]; intros cur above ul La Ba UL.
  - eexists _, _. split; reflexivity.
  - cbn [png_rows fst snd] in *. rewrite app_comm_cons, pred_bytes_app.
    destruct (pred_row pr bpc bpp cur tag above row ul n La Lr Ba Br Hb Hn T UL) as (ul' & R & UL').
    rewrite R. cbn [bind]. destruct (IH (tag + 10) row ul' Lr Br UL') as (p & w & R2 & C). rewrite R2. cbn [bind].
    eexists _, _. split; [reflexivity|]. cbn [app concat map snd]. rewrite C. reflexivity.
Qed.

(** Parameters the constructor accepts without overflow *)
Definition params_ok (colors bpc columns : Z) : Prop :=
  1 <= colors /\ 1 <= bpc /\ 1 <= columns /\ columns * colors * bpc < 2 ^ 31.

Lemma to_int_id z : 0 <= z < 2 ^ 31 -> to_int z = z.
Proof. intro H. unfold to_int. rewrite Z.mod_small by lia. replace (z <? 2 ^ 31) with true by lia. reflexivity. Qed.

Lemma pred_new_ok pr colors bpc columns : params_ok colors bpc columns -> 0 <= pr < 2 ^ 31 -> 8 <= columns * colors * bpc ->
  pred_new pr colors bpc columns =
  Ok (mk_pred pr bpc (bpc * colors / 8) (columns * colors * bpc / 8) (if 10 <=? pr then -1 else pr) 0 (10 <=? pr)
        (repeat 0 (Z.to_nat (columns * colors * bpc / 8))) (repeat 0 (Z.to_nat (bpc * colors / 8)))).
Proof.
  intros (H1 & H2 & H3 & H4) Hp H8. unfold pred_new.
  assert (bpc * colors <= columns * (bpc * colors)) by nia.
  assert (columns * colors <= columns * colors * bpc) by nia.
  assert (colors <= bpc * colors) by nia. assert (bpc <= bpc * colors) by nia. assert (columns <= columns * colors) by nia.
  rewrite !to_int_id by nia.
  replace (columns <? 1) with false by lia. replace (colors <? 1) with false by lia. replace (bpc <? 1) with false by lia.
  cbn [orb]. unfold int_ok.
  replace (-2 ^ 31 <=? bpc * colors) with true by lia. replace (bpc * colors <? 2 ^ 31) with true by nia.
  replace (-2 ^ 31 <=? columns * colors) with true by lia. replace (columns * colors <? 2 ^ 31) with true by nia.
  replace (-2 ^ 31 <=? columns * colors * bpc) with true by lia. replace (columns * colors * bpc <? 2 ^ 31) with true by nia.
  cbn [andb negb]. rewrite !Z.shiftr_div_pow2 by lia. change (2 ^ 3) with 8.
  assert (1 <= columns * colors * bpc / 8) by (apply Z.div_le_lower_bound; lia).
  replace (columns * colors * bpc / 8 <? 1) with false by lia. reflexivity.
Qed.

(** The PNG theorem. *)
Lemma png_decodes pr colors bpc columns rows blocks :
  params_ok colors bpc columns -> 10 <= pr < 2 ^ 31 -> (columns * colors * bpc) mod 8 = 0 ->
  Forall (fun tr => (fst tr = 0 \/ fst tr = 2 \/ ((colors * bpc) mod 8 = 0 /\ (fst tr = 1 \/ fst tr = 4))) /\
                    Z.of_nat (length (snd tr)) = row_bytes colors bpc columns /\ bytes_ok (snd tr)) rows ->
  concat blocks = png_rows (pixel_bytes colors bpc) (repeat 0 (Z.to_nat (row_bytes colors bpc columns))) rows ->
  yields (pred_dec pr colors bpc columns) blocks (concat (map snd rows)).
Proof.
  intros P Hp M8 F E. pose proof P as (H1 & H2 & H3 & H4).
  assert (0 < columns * colors * bpc) by nia.
  assert (8 <= columns * colors * bpc).
  { destruct (Z.lt_ge_cases (columns * colors * bpc) 8); [|lia]. rewrite Z.mod_small in M8 by lia. lia. }
  assert (R8 : row_bytes colors bpc columns = columns * colors * bpc / 8).
  { unfold row_bytes. rewrite (Z.div_mod (columns * colors * bpc) 8) at 1 by lia. rewrite M8.
    replace (8 * (columns * colors * bpc / 8) + 0 + 7) with (7 + (columns * colors * bpc / 8) * 8) by lia.
    rewrite Z.div_add by lia. reflexivity. }
  assert (R1 : 1 <= columns * colors * bpc / 8) by (apply Z.div_le_lower_bound; lia).
  set (n := Z.to_nat (columns * colors * bpc / 8)) in *. set (bpp := bpc * colors / 8) in *.
  assert (Hb : 0 <= bpp) by (subst bpp; apply Z.div_pos; nia).
  assert (Hn : Z.of_nat n = columns * colors * bpc / 8) by (subst n; lia).
  rewrite R8 in *. fold n in E.
  assert (G : forall rs above, Forall (fun tr => (fst tr = 0 \/ fst tr = 2 \/ ((colors * bpc) mod 8 = 0 /\ (fst tr = 1 \/ fst tr = 4))) /\
                    Z.of_nat (length (snd tr)) = columns * colors * bpc / 8 /\ bytes_ok (snd tr)) rs ->
     png_rows (pixel_bytes colors bpc) above rs = png_rows bpp above rs /\
     Forall (fun tr => tag_ok bpp (fst tr) /\ length (snd tr) = n /\ bytes_ok (snd tr)) rs).
  { clear E F. induction rs as [|[tag row] rs IH]; intros above F; [split; [reflexivity|constructor]|].
    pose proof (Forall_inv F) as (T & L & B). apply Forall_inv_tail in F. cbn [fst snd] in *.
    destruct (IH row F) as [E1 F1]. cbn [png_rows]. rewrite E1. split.
    - f_equal. f_equal. unfold filter_row. apply map_ext. intro j. f_equal. f_equal.
      destruct T as [-> | [-> | [M T]]]; [reflexivity|reflexivity|].
      assert (pixel_bytes colors bpc = bpp) as ->; [|reflexivity].
      subst bpp. unfold pixel_bytes. rewrite (Z.mul_comm bpc). rewrite (Z.div_mod (colors * bpc) 8) at 1 by lia. rewrite M.
      replace (8 * (colors * bpc / 8) + 0 + 7) with (7 + (colors * bpc / 8) * 8) by lia.
      rewrite Z.div_add by lia. reflexivity.
    - constructor; [|exact F1]. cbn [fst snd]. split; [|split; [lia|exact B]].
      destruct T as [-> | [-> | [M T]]]; [left; reflexivity|right; left; reflexivity|].
      right; right. split; [|exact T]. subst bpp.
      assert (8 <= colors * bpc).
      { destruct (Z.lt_ge_cases (colors * bpc) 8); [|lia]. rewrite Z.mod_small in M by nia. nia. }
      rewrite (Z.mul_comm bpc). apply Z.div_le_lower_bound; lia. }
  destruct (G rows (repeat 0 n) F) as [Er Fr].
  rewrite Er in E.
  assert (B0 : bytes_ok (repeat 0 n)).
  { unfold bytes_ok. apply Forall_forall. intros x Hx. apply repeat_spec in Hx. subst. unfold is_byte. lia. }
  destruct (pred_rows pr bpc bpp n rows Hb ltac:(lia) Fr (-1) (repeat 0 n) (repeat 0 (Z.to_nat bpp)) (repeat_length _ _) B0) as (p & w & R & C).
  { rewrite repeat_length. lia. }
  exists w. split; [|exact C]. unfold f_run. cbn [f_begin pred_dec].
  rewrite pred_new_ok by (auto; lia). replace (10 <=? pr) with true by lia. cbn [bind].
  fold bpp. fold n.
  change (f_blocks _ ?x blocks) with (f_blocks (pred_dec pr colors bpc columns) x blocks).
  rewrite pred_blocks by (cbn [p_pred]; lia). rewrite E, <- Hn, R. cbn [bind f_end pred_dec]. rewrite app_nil_r. reflexivity.
Qed.

(** TIFF predictor 2, 8 bits per component *)
Lemma tiff_byte pr bpp rows above row ul i n : pr = 2 ->
  length above = n -> length row = n -> bytes_ok row -> (i < n)%nat -> 1 <= bpp ->
  pred_byte (mk_pred pr 8 bpp rows 2 (Z.of_nat i) false (mix above row i) ul)
        ((nth i row 0 - at0 row (Z.of_nat i - bpp)) mod 256) = Ok (mix above row (S i), ul).
Proof.
  intros -> La Lr Br Hi Hb. unfold pred_byte. cbn [p_cur p_idx p_prev p_ul p_bpc p_bpp Z.eqb Pos.eqb].
  assert (p_left (mk_pred 2 8 bpp rows 2 (Z.of_nat i) false (mix above row i) ul) = at0 row (Z.of_nat i - bpp)) as ->.
  { unfold p_left, at0. cbn [p_idx p_bpp p_prev]. destruct (Z.of_nat i - bpp <? 0) eqn:E; [reflexivity|].
    replace (Z.of_nat i - bpp) with (Z.of_nat (Z.to_nat (Z.of_nat i - bpp))) by lia.
    rewrite (mix_left above row n La Lr) by lia. rewrite Nat2Z.id. reflexivity. }
  rewrite add_back by (try apply at0_byte; try apply bytes_nth; assumption).
  rewrite (mix_set above row n La Lr) by lia. reflexivity.
Qed.

Lemma tiff_row_from bpp above row ul n :
  length above = n -> length row = n -> bytes_ok row -> 1 <= bpp ->
  forall m i, (i + m = n)%nat -> (1 <= m)%nat ->
  pred_bytes (mk_pred 2 8 bpp (Z.of_nat n) 2 (Z.of_nat i) false (mix above row i) ul)
     (map (fun i => (nth i row 0 - at0 row (Z.of_nat i - bpp)) mod 256) (seq i m))
   = Ok (mk_pred 2 8 bpp (Z.of_nat n) 2 0 false row ul, [row]).
Proof.
  intros La Lr Br Hb m. induction m as [|m IH]; intros i E Hm; [lia|].
  cbn [seq map pred_bytes]. unfold pred_step at 1. cbn [p_next].
  rewrite (tiff_byte 2 bpp (Z.of_nat n) above row ul i n) by (auto; lia).
  cbn [bind p_pred p_bpc p_bpp p_rows p_cur p_idx].
  unfold pred_row_end. cbn [p_pred p_bpc p_bpp p_rows p_cur p_idx p_prev p_ul].
  destruct m as [|m].
  - replace (Z.of_nat n <=? Z.of_nat i + 1) with true by lia. cbn [seq map pred_bytes bind app].
    assert (mix above row (S i) = row) as ->.
    { replace (S i) with n by lia. apply (mix_n above row n La Lr). }
    reflexivity.
  - replace (Z.of_nat n <=? Z.of_nat i + 1) with false by lia.
    replace (Z.of_nat i + 1) with (Z.of_nat (S i)) by lia.
    rewrite (IH (S i)) by lia. reflexivity.
Qed.

Lemma tiff_all bpp n rows ul : 1 <= bpp -> (1 <= n)%nat ->
  Forall (fun row => length row = n /\ bytes_ok row) rows ->
  forall above, length above = n ->
  exists p w, pred_bytes (mk_pred 2 8 bpp (Z.of_nat n) 2 0 false above ul) (tiff_rows bpp rows) = Ok (p, w) /\ concat w = concat rows.
Proof.
  intros Hb Hn F. induction F as [|row rows (Lr & Br) F IH]; intros above La.
  - eexists _, _. split; reflexivity.
  - cbn [tiff_rows flat_map]. rewrite Lr. rewrite pred_bytes_app.
    pose proof (tiff_row_from bpp above row ul n La Lr Br Hb n 0%nat ltac:(lia) Hn) as R.
    change (mix above row 0) with above in R. change (Z.of_nat 0) with 0 in R. rewrite R. cbn [bind].
    destruct (IH row Lr) as (p & w & R2 & C).
    change (flat_map _ rows) with (tiff_rows bpp rows). rewrite R2. cbn [bind].
    eexists _, _. split; [reflexivity|]. cbn [app concat]. rewrite C. reflexivity.
Qed.

Lemma tiff_decodes colors columns rows blocks :
  params_ok colors 8 columns ->
  Forall (fun row => Z.of_nat (length row) = columns * colors /\ bytes_ok row) rows ->
  concat blocks = tiff_rows colors rows ->
  yields (pred_dec 2 colors 8 columns) blocks (concat rows).
Proof.
  intros P F E. pose proof P as (H1 & H2 & H3 & H4).
  assert (D : columns * colors * 8 / 8 = columns * colors) by (apply Z.div_mul; lia).
  assert (D2 : 8 * colors / 8 = colors) by (rewrite Z.mul_comm; apply Z.div_mul; lia).
  set (n := Z.to_nat (columns * colors)).
  assert (Hn : Z.of_nat n = columns * colors) by (subst n; nia).
  assert (F' : Forall (fun row => length row = n /\ bytes_ok row) rows).
  { eapply Forall_impl; [|exact F]. cbv beta. intros r [L B]. split; [lia|exact B]. }
  destruct (tiff_all colors n rows (repeat 0 (Z.to_nat colors)) H1 ltac:(nia) F' (repeat 0 n) (repeat_length _ _)) as (p & w & R & C).
  exists w. split; [|exact C]. unfold f_run. cbn [f_begin pred_dec].
  rewrite pred_new_ok by (auto; lia || nia). rewrite D, D2. change (10 <=? 2) with false. cbn [bind].
  change (f_blocks _ ?x blocks) with (f_blocks (pred_dec 2 colors 8 columns) x blocks).
  rewrite pred_blocks by (cbn [p_pred]; lia). fold n. rewrite E, <- Hn, R. cbn [bind f_end pred_dec]. rewrite app_nil_r. reflexivity.
Qed.
