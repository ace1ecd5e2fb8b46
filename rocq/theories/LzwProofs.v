(** Proof that LZW data delivered in one block is decoded as the standard says. *)
From Coq Require Import String.
From Verif Require Import Base BitLemmas TokModel FilterModel FilterSpec FilterProofs.
Local Open Scope Z_scope.

(** ** Bits *)
Lemma bits_len w : forall x, length (bits w x) = w.
Proof. induction w as [|w IH]; intro x; cbn; auto. Qed.

Lemma bits_shift a b x : bits (a + b) x = bits a (Z.shiftr x (Z.of_nat b)) ++ bits b x.
Proof.
  induction a as [|a IH]; cbn [Nat.add bits app]; [reflexivity|]. rewrite IH. f_equal.
  rewrite Z.shiftr_spec by lia. f_equal. lia.
Qed.

Lemma bits_ext w x y : (forall i, 0 <= i < Z.of_nat w -> Z.testbit x i = Z.testbit y i) -> bits w x = bits w y.
Proof.
  induction w as [|w IH]; intro H; cbn [bits]; [reflexivity|]. rewrite IH by (intros; apply H; lia).
  rewrite H by lia. reflexivity.
Qed.
Lemma bits_inj w x y : bits w x = bits w y -> forall i, 0 <= i < Z.of_nat w -> Z.testbit x i = Z.testbit y i.
Proof.
  induction w as [|w IH]; intros H i Hi; [lia|]. cbn [bits] in H. injection H as H1 H2.
  destruct (Z.eq_dec i (Z.of_nat w)) as [->|]; [exact H1|]. apply IH; [exact H2|lia].
Qed.
(** masking recovers a number from its bits *)
Lemma bits_mask w x c : bits w x = bits w c -> 0 <= c < 2 ^ Z.of_nat w -> Z.land x (Z.ones (Z.of_nat w)) = c.
Proof.
  intros H Hc. rewrite Z.land_ones by lia. rewrite <- (Z.mod_small c (2 ^ Z.of_nat w)) by exact Hc.
  rewrite <- !Z.land_ones by lia. apply Z.bits_inj'. intros i Hi. rewrite !Z.land_spec.
  destruct (Z.lt_ge_cases i (Z.of_nat w)) as [L|G].
  - rewrite (bits_inj w x c H) by lia. reflexivity.
  - rewrite Z.ones_spec_high by lia. rewrite !andb_false_r. reflexivity.
Qed.

(** filling the buffer *)
Lemma bits_fill size buff c : (size + 8 <= 32)%nat -> is_byte c ->
  bits (size + 8) (u32 (Z.lor (Z.shiftl buff 8) c)) = bits size buff ++ bits 8 c.
Proof.
  intros L [C1 C2]. rewrite bits_shift. unfold u32. f_equal.
  - apply bits_ext. intros i Hi. rewrite Z.shiftr_spec by lia. rewrite Z.mod_pow2_bits_low by lia.
    rewrite Z.lor_spec. change (Z.of_nat 8) with 8. rewrite Z.shiftl_spec by lia. replace (i + 8 - 8) with i by lia.
    assert (Z.testbit c (i + 8) = false) as ->; [|apply orb_false_r].
    destruct (Z.eq_dec c 0) as [->|]; [apply Z.bits_0|]. apply Z.bits_above_log2; [lia|].
    apply Z.log2_lt_pow2; [lia|]. apply Z.lt_le_trans with (2 ^ 8); [exact C2|]. apply Z.pow_le_mono_r; lia.
  - apply bits_ext. intros i Hi. rewrite Z.mod_pow2_bits_low by lia. rewrite Z.lor_spec.
    rewrite Z.shiftl_spec_low by lia. reflexivity.
Qed.

Lemma fill_len b : forall size buff s1 f1 b1, lzw_fill size buff b = (s1, f1, b1) -> (length b1 <= length b)%nat.
Proof.
  induction b as [|c r IH]; intros size buff s1 f1 b1 E; cbn [lzw_fill] in E; [injection E as _ _ <-; auto|].
  destruct (size <=? 16); [apply IH in E; cbn [length]; lia|injection E as _ _ <-; auto].
Qed.

Lemma fill_bits b : bytes_ok b -> forall size buff s1 f1 b1, (size <= 24)%nat ->
  lzw_fill (Z.of_nat size) buff b = (s1, f1, b1) ->
  exists n1, s1 = Z.of_nat n1 /\ (n1 <= 24)%nat /\ (size <= n1)%nat /\ bytes_ok b1 /\
    bits n1 f1 ++ byte_bits b1 = bits size buff ++ byte_bits b /\ (b1 <> [] -> (16 < n1)%nat) /\
    ((size <= 16)%nat -> b <> [] -> (length b1 < length b)%nat).
Proof.
  induction 1 as [|c r Hc Hr IH]; intros size buff s1 f1 b1 L E; cbn [lzw_fill] in E.
  - injection E as <- <- <-. exists size. repeat split; auto; try congruence. constructor.
  - destruct (Z.of_nat size <=? 16) eqn:E16.
    + replace (Z.of_nat size + 8) with (Z.of_nat (size + 8)) in E by lia.
      destruct (IH (size + 8)%nat _ s1 f1 b1 ltac:(lia) E) as (n1 & Es & L24 & Lg & B1 & Bt & N1 & Dec).
      exists n1. repeat split; auto; try lia.
      * rewrite Bt. rewrite bits_fill by (auto; lia). cbn [byte_bits flat_map]. rewrite <- app_assoc. reflexivity.
      * intros _ _. apply fill_len in E. cbn [length]. lia.
    + injection E as <- <- <-. exists size. repeat split; auto; try lia. constructor; assumption.
Qed.

(** ** Codes *)

(** The decoder's view of a stream that goes on with [bs]: [k] codes since the last clear. *)
Inductive lzw_mid : nat -> list (list Z) -> option (list Z) -> list (list Z) -> list bool -> Prop :=
| mid k t p chunks more b1 b2 :
    lzw_segment t p k chunks b1 -> lzw_stream (k + length chunks) more b2 ->
    lzw_mid k t p (chunks ++ more) (b1 ++ b2).

(** Relation of the decoder's table and the standard's *)
Definition lzw_rel (k : nat) (t : list (list Z)) (p : option (list Z)) (s : lzw) (old : Z) : Prop :=
  lz_len s = Z.of_nat (lzw_width k) /\ lz_mask s = lz_len s - 9 /\ (Z.of_nat k <= 3839) /\
  match p with
  | None => k = 0%nat /\ t = lzw_start /\ lz_table s = lzw_init_table
  | Some q => (1 <= k)%nat /\ exists junk entries,
      t = lzw_start ++ entries /\ lz_table s = lzw_init_table ++ [junk] ++ entries /\
      length entries = (k - 1)%nat /\ q <> [] /\ lz_char s = nth 0 q 0 /\
      0 <= old < Z.of_nat (length (lz_table s)) /\ nth (Z.to_nat old) (lz_table s) [] = q
  end.

Lemma width_cases k : (Z.of_nat k <= 3839) ->
  (lzw_width k = 9 \/ lzw_width k = 10 \/ lzw_width k = 11 \/ lzw_width k = 12)%nat.
Proof.
  intros _. unfold lzw_width. generalize (258 + k)%nat. intro n.
  destruct (Nat.ltb n 512); [auto|]. destruct (Nat.ltb n 1024); [auto|]. destruct (Nat.ltb n 2048); auto.
Qed.

Definition zwidth (z : Z) : Z := if z <? 512 then 9 else if z <? 1024 then 10 else if z <? 2048 then 11 else 12.
Lemma ltb_z n m : Nat.ltb n m = (Z.of_nat n <? Z.of_nat m).
Proof. destruct (Nat.ltb_spec n m); symmetry; [apply Z.ltb_lt|apply Z.ltb_ge]; lia. Qed.
Lemma width_z k : Z.of_nat (lzw_width k) = zwidth (258 + Z.of_nat k).
Proof.
  unfold lzw_width, zwidth. rewrite !ltb_z, Nat2Z.inj_add.
  change (Z.of_nat 258) with 258. change (Z.of_nat 512) with 512. change (Z.of_nat 1024) with 1024. change (Z.of_nat 2048) with 2048.
  destruct (_ <? 512); [reflexivity|]. destruct (_ <? 1024); [reflexivity|]. destruct (_ <? 2048); reflexivity.
Qed.
Lemma zwidth_room z : 258 <= z < 258 + 3839 -> z <= 2 ^ zwidth z.
Proof.
  intro H. unfold zwidth. destruct (Z.ltb_spec z 512); [change (2 ^ 9) with 512; lia|].
  destruct (Z.ltb_spec z 1024); [change (2 ^ 10) with 1024; lia|].
  destruct (Z.ltb_spec z 2048); [change (2 ^ 11) with 2048; lia|]. change (2 ^ 12) with 4096. lia.
Qed.
Lemma zwidth_step z : zwidth (z + 1) =
  if (z =? 511) || (z =? 1023) || (z =? 2047) then zwidth z + 1 else zwidth z.
Proof.
  destruct (Z.eqb_spec z 511) as [->|]; [reflexivity|]. destruct (Z.eqb_spec z 1023) as [->|]; [reflexivity|].
  destruct (Z.eqb_spec z 2047) as [->|]; [reflexivity|]. cbn [orb]. unfold zwidth.
  destruct (Z.ltb_spec z 512); destruct (Z.ltb_spec (z + 1) 512); try lia.
  destruct (Z.ltb_spec z 1024); destruct (Z.ltb_spec (z + 1) 1024); try lia.
  destruct (Z.ltb_spec z 2048); destruct (Z.ltb_spec (z + 1) 2048); try lia.
Qed.

Lemma width_room k : Z.of_nat k < 3839 -> 258 + Z.of_nat k <= 2 ^ Z.of_nat (lzw_width k).
Proof. intro H. rewrite width_z. apply zwidth_room. lia. Qed.

Lemma width_step k : 
  Z.of_nat (lzw_width (S k)) =
  let size := 258 + Z.of_nat k in
  if (size =? 511) || (size =? 1023) || (size =? 2047) then Z.of_nat (lzw_width k) + 1 else Z.of_nat (lzw_width k).
Proof. cbv zeta. rewrite !width_z, Nat2Z.inj_succ, <- zwidth_step. f_equal. lia. Qed.

Lemma mask_ones s k : lz_len s = Z.of_nat (lzw_width k) -> lz_mask s = lz_len s - 9 -> (Z.of_nat k <= 3839) ->
  nth (Z.to_nat (lz_mask s)) lzw_masks 0 = Z.ones (Z.of_nat (lzw_width k)).
Proof.
  intros L M K. rewrite M, L. destruct (width_cases k K) as [-> | [-> | [-> | ->]]]; reflexivity.
Qed.

Lemma init_len : length lzw_init_table = 257%nat.
Proof. reflexivity. Qed.
Lemma start_len : length lzw_start = 258%nat.
Proof. reflexivity. Qed.

(** outside the reserved codes both tables agree *)
Lemma table_agree junk entries code s : nth_error (lzw_start ++ entries) code = Some s -> s <> [] ->
  nth_error (lzw_init_table ++ [junk] ++ entries) code = Some s /\ code <> 256%nat /\ code <> 257%nat.
Proof.
  intros H N.
  assert (code <> 256%nat /\ code <> 257%nat) as [N1 N2].
  { split; intros ->; rewrite nth_error_app1 in H by (rewrite start_len; lia); vm_compute in H; congruence. }
  split; [|auto].
  destruct (Nat.lt_ge_cases code 258) as [L|G].
  - assert (L2 : (code < 256)%nat) by lia.
    rewrite nth_error_app1 in H by (rewrite start_len; lia).
    rewrite nth_error_app1 by (rewrite init_len; lia).
    unfold lzw_start in H. unfold lzw_init_table.
    rewrite nth_error_app1 in H by (rewrite map_length, seq_length; lia).
    rewrite nth_error_app1 by (rewrite map_length, seq_length; lia). exact H.
  - rewrite nth_error_app2 in H by (rewrite start_len; lia). rewrite start_len in H.
    rewrite app_assoc. rewrite nth_error_app2 by (rewrite app_length, init_len; cbn; lia).
    rewrite app_length, init_len. cbn [length]. replace (code - (257 + 1))%nat with (code - 258)%nat by lia. exact H.
Qed.

(** One data code *)
Lemma code_step k t p s old code c x t' :
  lzw_rel k t p s old -> (Z.of_nat k < 3839) ->
  t' = match p with None => t | Some q => t ++ [q ++ [c]] end ->
  nth_error t' code = Some (c :: x) ->
  exists s1, lzw_code s old (Z.of_nat code) = Ok (LzGo s1 (Z.of_nat code) [c :: x]) /\
    lzw_rel (S k) t' (Some (c :: x)) s1 (Z.of_nat code) /\ Z.of_nat code < 2 ^ Z.of_nat (lzw_width k).
Proof.
  intros (RL & RM & RK & R) K Et N.
  assert (Range : length t' = (258 + k)%nat).
  { destruct p as [q|].
    - destruct R as (K1 & junk & entries & T & _ & Le & _). rewrite Et, T, !app_length, start_len, Le. cbn. lia.
    - destruct R as (-> & -> & _). rewrite Et. apply start_len. }
  assert (CL : (code < 258 + k)%nat). { rewrite <- Range. apply nth_error_Some. congruence. }
  pose proof (width_room k K) as W.
  assert (NE : code <> 256%nat /\ code <> 257%nat).
  { destruct p as [q|].
    - destruct R as (K1 & junk & entries & T & _). rewrite Et, T, <- app_assoc in N.
      destruct (table_agree [] _ _ _ N ltac:(discriminate)) as (_ & ?). assumption.
    - destruct R as (_ & -> & _). rewrite Et in N. rewrite <- (app_nil_r lzw_start) in N.
      destruct (table_agree [] _ _ _ N ltac:(discriminate)) as (_ & ?). assumption. }
  unfold lzw_code. replace (Z.of_nat code =? 256) with false by lia. replace (Z.of_nat code =? 257) with false by lia.
  pose proof (width_step k) as WS. cbv zeta in WS.
  destruct p as [q|].
  - destruct R as (K1 & junk & entries & T & TB & Le & Nq & Ch & Ro & No).
    set (size := Z.of_nat (length (lz_table s))) in *.
    assert (Sz : size = Z.of_nat (257 + k)).
    { subst size. rewrite TB, !app_length, init_len, Le. cbn [length]. lia. }
    assert (D : (if size <=? Z.of_nat code then
                  if size <=? old then Err EValueOutOfRange
                  else Ok (nth (Z.to_nat old) (lz_table s) [] ++ [lz_char s])
                 else Ok (nth (Z.to_nat (Z.of_nat code)) (lz_table s) [])) = Ok (c :: x)).
    { destruct (size <=? Z.of_nat code) eqn:E.
      - replace (size <=? old) with false by lia. rewrite No, Ch.
        assert (code = 257 + k)%nat by lia. subst code.
        rewrite Et, T in N. rewrite nth_error_app2 in N by (rewrite app_length, start_len, Le; lia).
        rewrite app_length, start_len, Le in N. replace (257 + k - (258 + (k - 1)))%nat with 0%nat in N by lia.
        cbn [nth_error] in N. injection N as N. destruct q as [|q0 qr]; [congruence|]. cbn [app nth] in *.
        injection N as -> N. rewrite N. reflexivity.
      - rewrite Nat2Z.id. f_equal. apply nth_error_nth. rewrite TB.
        rewrite Et in N. rewrite nth_error_app1 in N by (rewrite T, app_length, start_len, Le; lia). rewrite T in N.
        apply (table_agree junk _ _ _ N). discriminate. }
    rewrite D. cbn [bind]. replace (old <? size) with true by lia. rewrite No.
    eexists. split; [reflexivity|]. split; [|lia].
    unfold lzw_rel. cbn [lz_len lz_mask lz_table lz_char].
    assert (SzN : Z.of_nat (length (lz_table s ++ [q ++ [c]])) = 258 + Z.of_nat k).
    { rewrite app_length. cbn [length]. lia. }
    rewrite SzN. split; [|split; [|split; [lia|split; [lia|]]]].
    + rewrite WS, RL. reflexivity.
    + destruct (_ || _); lia.
    + exists junk, (entries ++ [q ++ [c]]).
      split; [rewrite Et, T, <- app_assoc; reflexivity|]. split; [rewrite TB, <- !app_assoc; reflexivity|].
      split; [rewrite app_length, Le; cbn; lia|]. split; [discriminate|]. split; [reflexivity|].
      split; [lia|]. rewrite Nat2Z.id. apply nth_error_nth. rewrite TB, <- !app_assoc.
      rewrite Et, T, <- app_assoc in N. apply (table_agree junk _ _ _ N). discriminate.
  - destruct R as (-> & -> & TB). set (size := Z.of_nat (length (lz_table s))) in *.
    assert (Sz : size = 257). { subst size. rewrite TB. reflexivity. }
    replace (size <=? Z.of_nat code) with false by lia. rewrite Nat2Z.id.
    subst t'. rewrite <- (app_nil_r lzw_start) in N.
    assert (D : nth code (lz_table s) [] = c :: x).
    { apply nth_error_nth. rewrite TB.
      destruct (table_agree [] _ _ _ N ltac:(discriminate)) as (N' & _). cbn [app] in N'.
      rewrite nth_error_app1 in N' by (rewrite init_len; lia). exact N'. }
    rewrite D. cbn [bind]. eexists. split; [reflexivity|]. split; [|lia].
    unfold lzw_rel. cbn [lz_len lz_mask lz_table lz_char].
    set (junk := (if old <? size then nth (Z.to_nat old) (lz_table s) [] else c :: x) ++ [c]).
    assert (SzN : Z.of_nat (length (lz_table s ++ [junk])) = 258 + Z.of_nat 0).
    { rewrite app_length. cbn [length]. lia. }
    rewrite SzN. split; [|split; [|split; [lia|split; [lia|]]]].
    + rewrite WS, RL. reflexivity.
    + destruct (_ || _); lia.
    + exists junk, []. split; [rewrite app_nil_r; reflexivity|]. split; [rewrite TB; reflexivity|].
      split; [reflexivity|]. split; [discriminate|]. split; [reflexivity|]. split; [lia|].
      rewrite Nat2Z.id. rewrite app_nth1 by lia. exact D.
Qed.

(** The next code of a stream: data, clear or end. *)
Lemma mid_next k t p chunks bs s old : lzw_mid k t p chunks bs -> lzw_rel k t p s old ->
  exists w code rest, w = lzw_width k /\ bs = bits w code ++ rest /\ 0 <= code < 2 ^ Z.of_nat w /\
  ((lzw_code s old code = Ok LzStop /\ chunks = []) \/
   exists s1 old1 w1 k1 t1 p1 more, lzw_code s old code = Ok (LzGo s1 old1 w1) /\ chunks = w1 ++ more /\
     lzw_mid k1 t1 p1 more rest /\ lzw_rel k1 t1 p1 s1 old1).
Proof.
  intros M R. destruct M as [k t p chunks more b1 b2 Sg St].
  pose proof R as (RL & RM & RK & _).
  assert (W257 : 257 < 2 ^ Z.of_nat (lzw_width k)).
  { destruct (width_cases k RK) as [-> | [-> | [-> | ->]]]; reflexivity. }
  inversion Sg as [t0 p0 i0|t0 p0 i0 c x more0 t' code bs Et N Li Sg']; subst.
  - cbn [length] in St. rewrite Nat.add_0_r in St. cbn [app].
    inversion St as [k0 rest|k0 ch mo b1' b2' Sg2 St2]; subst.
    + exists (lzw_width k), 257, rest. split; [reflexivity|]. split; [reflexivity|]. split; [lia|]. left. split; reflexivity.
    + exists (lzw_width k), 256, (b1' ++ b2'). split; [reflexivity|]. split; [reflexivity|]. split; [lia|]. right.
      unfold lzw_code. cbn [Z.eqb Pos.eqb].
      eexists _, _, [], 0%nat, lzw_start, None, _. split; [reflexivity|]. split; [reflexivity|].
      split; [apply mid; assumption|]. unfold lzw_rel. cbn [lz_len lz_mask lz_table]. repeat split; try reflexivity. lia.
  - destruct (code_step k t p s old code c x _ R ltac:(lia) eq_refl N) as (s1 & E & R1 & Rg).
    exists (lzw_width k), (Z.of_nat code), (bs ++ b2). split; [reflexivity|]. split; [rewrite <- app_assoc; reflexivity|].
    split; [lia|]. right.
    eexists _, _, _, (S k), _, _, (more0 ++ more). split; [exact E|]. split; [reflexivity|].
    split; [|exact R1]. apply mid; [exact Sg'|]. cbn [length] in St. replace (S k + length more0)%nat with (k + S (length more0))%nat by lia. exact St.
Qed.

Lemma app_same {A} (a b : list A) : forall c d, a ++ c = b ++ d -> length a = length b -> a = b /\ c = d.
Proof.
  revert b; induction a as [|x a IH]; intros [|y b] c d E L; cbn [length] in L; try discriminate; [split; [reflexivity|exact E]|].
  cbn [app] in E. injection E as -> E. destruct (IH b c d E) as [-> ->]; [lia|]. split; reflexivity.
Qed.

(** The inner loop *)
Lemma codes_loop fuel : forall k t p chunks bs s old size buff tail,
  lzw_mid k t p chunks bs -> lzw_rel k t p s old -> bits size buff ++ tail = bs -> (size <= fuel)%nat -> (size <= 24)%nat ->
  exists s1 old1 sz w, lzw_codes fuel s old (Z.of_nat size) buff = Ok (s1, old1, sz, w) /\
    ((sz = None /\ concat w = concat chunks) \/
     exists size1 k1 t1 p1 more bs1, sz = Some (Z.of_nat size1) /\ (size1 < 12)%nat /\ concat chunks = concat (w ++ more) /\
       lzw_mid k1 t1 p1 more bs1 /\ lzw_rel k1 t1 p1 s1 old1 /\ bits size1 buff ++ tail = bs1 /\ (size1 < lzw_width k1)%nat).
Proof.
  induction fuel as [|fuel IH]; intros k t p chunks bs s old size buff tail M R B F L.
  - assert (size = 0%nat) by lia. subst size. cbn [lzw_codes]. eexists _, _, _, _. split; [reflexivity|]. right.
    pose proof R as (RL & RM & RK & _).
    exists 0%nat, k, t, p, chunks, bs. pose proof (width_cases k RK).
    split; [reflexivity|]. split; [lia|]. split; [reflexivity|]. split; [exact M|]. split; [exact R|]. split; [exact B|lia].
  - cbn [lzw_codes]. pose proof R as (RL & RM & RK & _).
    destruct (Z.of_nat size <? lz_len s) eqn:E.
    + eexists _, _, _, _. split; [reflexivity|]. right. exists size, k, t, p, chunks, bs. pose proof (width_cases k RK).
      split; [reflexivity|]. split; [lia|]. split; [reflexivity|]. split; [exact M|]. split; [exact R|]. split; [exact B|lia].
    + destruct (mid_next k t p chunks bs s old M R) as (w & code & rest & -> & Ebs & Rc & N).
      set (w := lzw_width k) in *.
      assert (W9 : (9 <= w)%nat) by (pose proof (width_cases k RK); subst w; lia).
      assert (Sz : size = (w + (size - w))%nat) by lia.
      assert (Bw : bits w (Z.shiftr buff (Z.of_nat (size - w))) = bits w code /\ bits (size - w) buff ++ tail = rest).
      { rewrite Sz in B at 1. rewrite bits_shift, <- app_assoc in B. rewrite Ebs in B.
        apply app_same in B; [exact B|]. rewrite !bits_len. reflexivity. }
      destruct Bw as [Bw Br].
      assert (Ecode : Z.land (Z.shiftr buff (Z.of_nat size - lz_len s)) (nth (Z.to_nat (lz_mask s)) lzw_masks 0) = code).
      { rewrite (mask_ones s k RL RM RK). rewrite RL. fold w. replace (Z.of_nat size - Z.of_nat w) with (Z.of_nat (size - w)) by lia.
        apply bits_mask; assumption. }
      rewrite Ecode. destruct N as [[N1 N2]|(s1 & old1 & w1 & k1 & t1 & p1 & more & N1 & N2 & N3 & N4)].
      * rewrite N1. cbn [bind]. eexists _, _, _, _. split; [reflexivity|]. left. rewrite N2. split; reflexivity.
      * rewrite N1. cbn [bind]. rewrite RL. fold w. replace (Z.of_nat size - Z.of_nat w) with (Z.of_nat (size - w)) by lia.
        destruct (IH k1 t1 p1 more rest s1 old1 (size - w)%nat buff tail N3 N4 Br ltac:(lia) ltac:(lia)) as (s2 & old2 & sz & w2 & E2 & C2).
        rewrite E2. cbn [bind]. eexists _, _, _, _. split; [reflexivity|]. rewrite N2.
        destruct C2 as [[-> C2]|(size1 & k2 & t2 & p2 & more2 & bs2 & X1 & X2 & X3 & X4)].
        -- left. split; [reflexivity|]. rewrite !concat_app, C2. reflexivity.
        -- right. exists size1, k2, t2, p2, more2, bs2. split; [exact X1|]. split; [exact X2|]. split; [|exact X4].
           rewrite concat_app, X3, !concat_app, app_assoc. reflexivity.
Qed.

Lemma mid_len k t p chunks bs s old : lzw_mid k t p chunks bs -> lzw_rel k t p s old -> (lzw_width k <= length bs)%nat.
Proof.
  intros M R. destruct (mid_next k t p chunks bs s old M R) as (w & code & rest & -> & -> & _).
  rewrite app_length, bits_len. lia.
Qed.

(** The outer loop *)
Lemma lzw_loop_ok fuel : forall k t p chunks bs s old size buff b,
  lzw_mid k t p chunks bs -> lzw_rel k t p s old -> bits size buff ++ byte_bits b = bs -> bytes_ok b ->
  (size < 12)%nat -> (size < lzw_width k)%nat -> (length b <= fuel)%nat ->
  exists s1 w, lzw_loop fuel s old (Z.of_nat size) buff b = Ok (s1, w) /\ concat w = concat chunks.
Proof.
  induction fuel as [|fuel IH]; intros k t p chunks bs s old size buff b M R B Hb L12 Lw F.
  - destruct b; [|cbn in F; lia]. exfalso. pose proof (mid_len _ _ _ _ _ _ _ M R) as LB.
    rewrite <- B in LB. cbn [byte_bits flat_map] in LB. rewrite app_nil_r, bits_len in LB. lia.
  - destruct b as [|c b].
    + exfalso. pose proof (mid_len _ _ _ _ _ _ _ M R) as LB.
      rewrite <- B in LB. cbn [byte_bits flat_map] in LB. rewrite app_nil_r, bits_len in LB. lia.
    + cbn [lzw_loop]. destruct (lzw_fill (Z.of_nat size) buff (c :: b)) as [[size1 buff1] b1] eqn:EF.
      destruct (fill_bits (c :: b) Hb size buff size1 buff1 b1 ltac:(lia) EF) as (n1 & -> & L24 & Lg & B1 & Bt & N16 & Dec).
      specialize (Dec ltac:(lia) ltac:(discriminate)).
      rewrite <- Bt in B.
      destruct (codes_loop (Z.to_nat (Z.of_nat n1)) k t p chunks bs s old n1 buff1 (byte_bits b1) M R B ltac:(lia) L24)
        as (s1 & old1 & sz & w & E & C).
      rewrite E. cbn [bind]. destruct C as [[-> C]|(size2 & k1 & t1 & p1 & more & bs1 & -> & X2 & X3 & X4 & X5 & X6 & X7)].
      * eexists _, _. split; [reflexivity|exact C].
      * destruct (IH k1 t1 p1 more bs1 s1 old1 size2 buff1 b1 X4 X5 X6 B1 X2 X7 ltac:(lia)) as (s2 & w2 & E2 & C2).
        rewrite E2. cbn [bind]. eexists _, _. split; [reflexivity|]. rewrite X3, !concat_app, C2. reflexivity.
Qed.

Lemma lzw_decodes data chunks bs : lzw_stream 0 chunks bs -> bytes_ok data -> byte_bits data = bs ->
  yields lzw_dec [data] (concat chunks).
Proof.
  intros S Hd B. 
  assert (M : lzw_mid 0 lzw_start None ([] ++ chunks) ([] ++ bs)).
  { apply mid; [constructor|]. exact S. }
  cbn [app] in M.
  set (s := mk_lzw 0 9 (nth 0 data 0) false lzw_init_table).
  destruct (lzw_loop_ok (length data) 0 lzw_start None chunks bs s 0 0%nat 0 data M) as (s1 & w & E & C); auto; try (cbn; lia).
  - unfold lzw_rel. subst s. cbn [lz_len lz_mask lz_table]. split; [reflexivity|]. split; [reflexivity|]. split; [lia|]. repeat split.
  - exists w. split; [|exact C]. unfold f_run. cbn [f_begin lzw_dec bind f_blocks f_block].
    unfold lzw_decode_block. cbn [lz_first lzw_begin lz_mask lz_len lz_table]. fold s.
    change (Z.of_nat 0) with 0 in E. rewrite E. cbn [bind f_end lzw_dec]. rewrite !app_nil_r. reflexivity.
Qed.
