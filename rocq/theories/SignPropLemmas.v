(** Lemmas about signed files *)
From Coq Require Import String Permutation.
From Verif Require Import Base TokModel WriteModel DictProofs TokProofs LexProofs ChainProofs ObjSpec ObjProofs ParseProofs ObjPropLemmas UtilModel ListModel ListProofs XrefModel XrefSpec XrefProofs XrefReadProofs XrefPropLemmas ParserModel ParserSpec ParserProofs ParserPropLemmas LitSpec ConformSpec ConformProofs GrammarSpec GrammarProofs GrammarWriteProofs GrammarPropLemmas UpdateModel UpdateSpec UpdateProofs UpdatePropLemmas SignModel SignSpec SignProofs.
Local Open Scope Z_scope.
Local Notation dict := (list (list Z * obj)) (only parsing).

Lemma close_split fl inc file body adds old prev id F : close_file fl inc file body adds old prev id = Ok F ->
  exists tail, F = file ++ body ++ tail /\ forall body', length body' = length body -> close_file fl inc file body' adds old prev id = Ok (file ++ body' ++ tail).
Proof.
  unfold close_file. intros H. apply bind_ok in H. destruct H as (secs & XS & H). apply bind_ok in H. destruct H as (t & WT & H). apply ok_inj in H.
  eexists. split; [symmetry; exact H|]. intros body' L. rewrite XS. cbn [bind]. rewrite WT. cbn [bind]. rewrite L. reflexivity.
Qed.
Lemma save_close fl tight inc file objs frees old prev id : save fl tight inc file objs frees old prev id =
  do p <- put_objects fl tight inc (Z.of_nat (length file)) objs; close_file fl inc file (fst p) (snd p ++ map (fun r => (r, XFreed)) frees) old prev id.
Proof. reflexivity. Qed.
Lemma put_objects_app fl tight inc a : forall b pos, put_objects fl tight inc pos (a ++ b) =
  do p <- put_objects fl tight inc pos a; do q <- put_objects fl tight inc (pos + Z.of_nat (length (fst p))) b; Ok (fst p ++ fst q, snd p ++ snd q).
Proof.
  induction a as [|[[r o] d] a IH]; intros b pos.
  - cbn [app put_objects bind fst snd length]. rewrite Z.add_0_r. destruct (put_objects fl tight inc pos b) as [[x y]| | |]; reflexivity.
  - cbn [app put_objects]. destruct (inc && negb d).
    + rewrite IH. destruct (put_objects fl tight inc pos a) as [p| | |]; try reflexivity. cbn [bind fst snd].
      destruct (put_objects fl tight inc _ b) as [q| | |]; reflexivity.
    + destruct (obj_text fl tight r o) as [t| | |]; try reflexivity. cbn [bind]. rewrite IH.
      destruct (put_objects fl tight inc _ a) as [p| | |]; try reflexivity. cbn [bind fst snd].
      rewrite app_length, Nat2Z.inj_add, Z.add_assoc. destruct (put_objects fl tight inc _ b) as [q| | |]; try reflexivity. cbn [bind fst snd].
      rewrite <- app_assoc. reflexivity.
Qed.

(** the form of the saved file *)
Section Shape.
Variables (fl : wflags) (tight : bool) (file : list Z) (before : list wobj) (r : ref) (e : dict) (after : list wobj)
  (frees : list ref) (old : dict) (prev : Z) (id : list obj) (n : nat).
Definition sd : sdict := dict_add (bs "ByteRange") (SData false range_beacon) (dict_add (bs "Contents") (SData true (contents_beacon n)) (imap SObj e)).
(** the parts of the saved file around the two values *)
Definition file_with (A M R : list Z) (a c : list Z) : list Z := A ++ a ++ M ++ c ++ R.
Record shape (A M R : list Z) := mk_shape {
  sb1 : list Z; sa1 : list (ref * xadd); sb3 : list Z; sa3 : list (ref * xadd); stx : list Z; sty : list Z; stz : list Z; stail : list Z;
  sX : dict; sY : dict; sZ : dict;
  s_groups : groups e sX sY sZ;
  s_tx : pairs_text fl sX = Ok stx; s_ty : pairs_text fl sY = Ok sty; s_tz : pairs_text fl sZ = Ok stz;
  s_before : put_objects fl tight true (Z.of_nat (length file)) before = Ok (sb1, sa1);
  s_after : put_objects fl tight true (Z.of_nat (length file) + Z.of_nat (length sb1) +
      Z.of_nat (length ((object_head fl tight r ++ dict_open fl) ++ filled fl stx sty stz range_beacon (contents_beacon n) ++ [62; 62] ++ object_end))) after = Ok (sb3, sa3);
  s_close : forall body, length body = length (sb1 ++ ((object_head fl tight r ++ dict_open fl) ++ filled fl stx sty stz range_beacon (contents_beacon n) ++ [62; 62] ++ object_end) ++ sb3) ->
    close_file fl true file body (sa1 ++ (r, XInUse (Some (Z.of_nat (length file) + Z.of_nat (length sb1)))) :: sa3 ++ map (fun r => (r, XFreed)) frees) old prev id = Ok (file ++ body ++ stail);
  s_A : A = file ++ sb1 ++ (object_head fl tight r ++ dict_open fl) ++ stx ++ bs "/ByteRange" ++ sp fl;
  s_M : M = nl fl ++ sty ++ bs "/Contents" ++ sp fl;
  s_R : R = nl fl ++ stz ++ [62; 62] ++ object_end ++ sb3 ++ stail
}.
Lemma shape_file A M R (s : shape A M R) a c : file_with A M R a c =
  file ++ (sb1 _ _ _ s ++ ((object_head fl tight r ++ dict_open fl) ++ filled fl (stx _ _ _ s) (sty _ _ _ s) (stz _ _ _ s) a c ++ [62; 62] ++ object_end) ++ sb3 _ _ _ s) ++ stail _ _ _ s.
Proof.
  destruct s as [b1 a1 b3 a3 tx ty tz tl X Y Z0 G EX EY EZ PB PA CL -> -> ->]. cbn [sb1 sb3 stx sty stz stail]. unfold file_with, filled. rewrite <- !app_assoc. reflexivity.
Qed.

Lemma saved_shape F m : wf_obj default_params (ODict e) -> save_signature fl tight file before r sd after frees old prev id = Ok (F, m) ->
  exists A M R, inhabited (shape A M R) /\ F = file_with A M R range_beacon (contents_beacon n) /\
    beacon false m = Z.of_nat (length A) /\ beacon true m = Z.of_nat (length (A ++ range_beacon ++ M)).
Proof.
  intros W H. destruct (two_split e) as (X & Y & Z0 & G).
  assert (PG : Forall pair_good (X ++ (bs "ByteRange", ONull) :: Y ++ (bs "Contents", ONull) :: Z0)).
  { apply Forall_forall. intros p I. apply (Permutation_in _ (groups_perm e X Y Z0 G ONull ONull)) in I. apply wf_pairs in W. destruct W as [_ W]. rewrite Forall_forall in W.
    apply dict_add_in in I. destruct I as [->|I]; [split; [apply name_okb_ok; vm_compute; reflexivity|exact Logic.I]|].
    apply dict_add_in in I. destruct I as [->|I]; [split; [apply name_okb_ok; vm_compute; reflexivity|exact Logic.I]|]. apply W. exact I. }
  assert (TOT : forall l, Forall pair_good l -> exists t, pairs_text fl l = Ok t).
  { induction 1 as [|[k v] l [K V] _ [t IH]]; [eexists; reflexivity|]. cbn [pairs_text fst snd] in *. destruct (write_total default_params fl v V) as [a WA].
    destruct K as (KB & K0 & KL). destruct (write_total default_params fl (OName k)) as [kt KT]; [repeat split; auto|]. cbn [write] in KT. rewrite KT, WA, IH. eexists. reflexivity. }
  apply Forall_app in PG. destruct PG as [GX PG]. apply Forall_inv_tail in PG. apply Forall_app in PG. destruct PG as [GY PG]. apply Forall_inv_tail in PG.
  destruct (TOT X GX) as [tx EX]. destruct (TOT Y GY) as [ty EY]. destruct (TOT Z0 PG) as [tz EZ].
  unfold save_signature in H. apply bind_ok in H. destruct H as ([b1 a1] & PB & H). apply bind_ok in H. destruct H as ([b2 m2] & PS & H).
  unfold sd in PS. rewrite (signature_text fl tight _ r e X Y Z0 tx ty tz n G EX EY EZ) in PS. apply ok_inj in PS. cbv zeta in PS.
  pose proof (f_equal fst PS) as E2. pose proof (f_equal snd PS) as EM. cbn [fst snd] in E2, EM. subst b2 m2. clear PS.
  apply bind_ok in H. destruct H as ([b3 a3] & PA & H). apply bind_ok in H. destruct H as (F' & CF & H). apply ok_inj in H.
  pose proof (f_equal fst H) as E2. pose proof (f_equal snd H) as EM. cbn [fst snd] in E2, EM. subst F' m. clear H.
  destruct (close_split _ _ _ _ _ _ _ _ _ CF) as (tail & EF & CL).
  exists (file ++ b1 ++ (object_head fl tight r ++ dict_open fl) ++ tx ++ bs "/ByteRange" ++ sp fl), (nl fl ++ ty ++ bs "/Contents" ++ sp fl),
    (nl fl ++ tz ++ [62; 62] ++ object_end ++ b3 ++ tail).
  split; [constructor; eapply (mk_shape _ _ _ b1 a1 b3 a3 tx ty tz tail X Y Z0 G EX EY EZ PB PA CL); reflexivity|].
  split; [rewrite EF; unfold file_with, filled; rewrite <- !app_assoc; reflexivity|].
  split; unfold beacon; cbn [fold_left fst snd Bool.eqb]; repeat rewrite len_app; lia.
Qed.
End Shape.

Lemma repeat_skip {A} (x : A) k : forall m, skipn k (repeat x m) = repeat x (m - k).
Proof. induction k as [|k IH]; intros [|m]; auto. cbn [skipn repeat Nat.sub]. apply IH. Qed.
Lemma hex_len s : length (write_string true s) = (2 * length s + 2)%nat.
Proof. unfold write_string. rewrite !app_length. cbn [length]. assert (L : length (flat_map hex_byte s) = (2 * length s)%nat) by (induction s as [|c s IH]; [reflexivity|cbn [flat_map length app]; rewrite app_length; cbn [hex_byte length]; lia]). lia. Qed.

(** the text of the range, filled up with the spaces that are left *)
Definition range_field (o p q : Z) : list Z := range_text o p q ++ repeat 32 (37 - length (range_text o p q)).
Lemma field_len o p q : (length (range_text o p q) <= 37)%nat -> length (range_field o p q) = 37%nat.
Proof. intros L. unfold range_field. rewrite app_length, repeat_length. lia. Qed.

Lemma signed_shape fl tight file before r d after frees old prev id filter sub type n signer F res :
  let e := plain_entries filter sub type d in
  wf_obj default_params (ODict e) -> Z.of_nat (length F) < 10 ^ 10 ->
  sign_document fl tight file before r d after frees old prev id filter sub type n signer = Ok (F, res) ->
  exists A M R parts, inhabited (shape fl tight file before r e after frees old prev id n A M R) /\
    let o := Z.of_nat (length A) + 37 + Z.of_nat (length M) in
    let p := o + Z.of_nat (2 * n + 2) in
    let q := Z.of_nat (length R) in
    length (range_field o p q) = 37%nat /\ spelled default_params (range_text o p q) (OArr [ONum 0; ONum o; ONum p; ONum q]) /\
    0 <= o < 10 ^ 10 /\ 0 <= p < 10 ^ 10 /\ 0 <= q < 10 ^ 10 /\ Z.of_nat (length F) = p + q /\
    concat parts = A ++ range_field o p q ++ M ++ R /\ Forall (fun b => b <> [] /\ Z.of_nat (length b) <= 65536) parts /\
    (if Nat.ltb n (length (signer parts)) then res = Err EInternalLogic /\ F = file_with A M R (range_field o p q) (contents_beacon n)
     else res = Ok tt /\ F = file_with A M R (range_field o p q) (write_string true (signer parts ++ repeat 0 (n - length (signer parts))))).
Proof.
  intros e W LF H. unfold sign_document in H. apply bind_ok in H. destruct H as ([Fs m] & SS & H).
  destruct (saved_shape fl tight file before r e after frees old prev id n Fs m W SS) as (A & M & R & SH & EF & BF & BT).
  set (o := Z.of_nat (length A) + 37 + Z.of_nat (length M)). set (p := o + Z.of_nat (2 * n + 2)). set (q := Z.of_nat (length R)).
  assert (RB : length range_beacon = 37%nat) by reflexivity.
  assert (CB : length (contents_beacon n) = (2 * n + 2)%nat) by apply repeat_length.
  assert (BO : beacon true m = o) by (rewrite BT, !len_app, RB; unfold o; lia).
  assert (LS : Z.of_nat (length Fs) = p + q) by (rewrite EF; unfold file_with; rewrite !len_app, RB, CB; unfold p, q, o; lia).
  rewrite BF, BO, CB in H. apply bind_ok in H. destruct H as (F1 & AR & H). unfold adjust_range in AR. fold p in AR. rewrite LS in AR.
  replace (p + q - p) with q in AR by lia. assert (O0 : 0 <= o) by (unfold o; lia). assert (P0 : 0 <= p) by (unfold p; lia). assert (Q0 : 0 <= q) by (unfold q; lia).
  rewrite range_written in AR by assumption. cbn [bind] in AR. apply ok_inj in AR.
  assert (LF1 : forall t f : list Z, (length t + Z.to_nat (Z.of_nat (length A)) <= length f)%nat -> length (write_at (Z.of_nat (length A)) t f) = length f).
  { intros t f L. unfold write_at. rewrite !app_length, firstn_length, skipn_length. lia. }
  assert (GE : (length Fs <= length F)%nat).
  { assert (G1 : (length Fs <= length F1)%nat) by (rewrite <- AR; unfold write_at; rewrite !app_length, firstn_length, skipn_length; lia).
    apply bind_ok in H. destruct H as (parts & _ & H). cbv zeta in H. destruct (Nat.ltb n (length (signer parts))); apply ok_inj in H; apply (f_equal fst) in H; cbn [fst] in H; subst F; [exact G1|].
    unfold write_at. rewrite !app_length, firstn_length, skipn_length. lia. }
  assert (PL : p < 10 ^ 10) by lia. assert (QL : q < 10 ^ 10) by lia. assert (OL : o < 10 ^ 10) by (unfold p in PL; lia).
  pose proof (range_len o p q ltac:(lia) ltac:(lia) ltac:(lia)) as RL. rewrite EF in AR. unfold file_with in AR. rewrite write_at_inside in AR by (rewrite RB; exact RL).
  replace (skipn (length (range_text o p q)) range_beacon) with (repeat 32 (37 - length (range_text o p q))) in AR by (symmetry; apply (repeat_skip 32 _ 37)).
  fold (range_field o p q) in AR. pose proof (field_len o p q RL) as FL.
  assert (L1 : Z.of_nat (length F1) = p + q) by (rewrite <- AR, !len_app, FL, CB; unfold p, q, o; lia).
  destruct (parts_read F1 o (Z.of_nat (2 * n + 2)) buffer_size ltac:(lia) ltac:(lia) ltac:(fold p; lia) ltac:(reflexivity) (S (length F1)) 0) as (parts & RP & CC & FA).
  { left. lia. }
  { assert (Z.of_nat (length (unread F1 o (Z.of_nat (2 * n + 2)) 0)) <= Z.of_nat (length F1)); [|lia]. rewrite unread_len; [|lia|lia|fold p; lia|left; lia]. fold p. lia. }
  rewrite RP in H. cbn [bind] in H.
  assert (UN : unread F1 o (Z.of_nat (2 * n + 2)) 0 = A ++ range_field o p q ++ M ++ R).
  { unfold unread. fold p. replace (Z.max 0 p) with p by lia. rewrite Z.sub_0_r. cbn [Z.to_nat skipn].
    assert (E1 : F1 = (A ++ range_field o p q ++ M) ++ contents_beacon n ++ R) by (rewrite <- AR, <- !app_assoc; reflexivity).
    assert (N1 : length (A ++ range_field o p q ++ M) = Z.to_nat o) by (rewrite !app_length, FL; unfold o; lia).
    rewrite E1 at 1. rewrite <- N1, firstn_app, firstn_all, Nat.sub_diag. cbn [firstn]. rewrite app_nil_r.
    assert (E2 : F1 = ((A ++ range_field o p q ++ M) ++ contents_beacon n) ++ R) by (rewrite E1; apply app_assoc).
    replace (Z.to_nat p) with (length ((A ++ range_field o p q ++ M) ++ contents_beacon n)) by (rewrite app_length, N1, CB; unfold p; lia).
    rewrite E2, skipn_app, skipn_all, Nat.sub_diag. cbn [skipn app]. rewrite <- !app_assoc. reflexivity. }
  exists A, M, R, parts. split; [exact SH|]. cbv zeta. fold o. fold p. fold q. split; [exact FL|]. split; [apply range_spelled; lia|].
  split; [lia|]. split; [lia|]. split; [lia|]. rewrite <- UN.
  destruct (Nat.ltb n (length (signer parts))) eqn:LT.
  - apply ok_inj in H. pose proof (f_equal fst H) as E1. pose proof (f_equal snd H) as E2. cbn [fst snd] in E1, E2. subst F res.
    split; [exact L1|]. split; [exact CC|]. split; [exact FA|]. split; [reflexivity|]. symmetry. exact AR.
  - apply Nat.ltb_ge in LT. apply ok_inj in H. pose proof (f_equal fst H) as E1. pose proof (f_equal snd H) as E2. cbn [fst snd] in E1, E2.
    assert (HL : length (write_string true (signer parts ++ repeat 0 (n - length (signer parts)))) = (2 * n + 2)%nat) by (rewrite hex_len, app_length, repeat_length; lia).
    assert (N1 : o = Z.of_nat (length (A ++ range_field o p q ++ M))) by (rewrite !len_app, FL; unfold o; lia).
    assert (EE : F1 = (A ++ range_field o p q ++ M) ++ contents_beacon n ++ R) by (rewrite <- AR, <- !app_assoc; reflexivity).
    pose proof (write_at_inside (A ++ range_field o p q ++ M) (contents_beacon n) R (write_string true (signer parts ++ repeat 0 (n - length (signer parts)))) ltac:(rewrite HL, CB; lia)) as WI.
    rewrite <- N1, <- EE in WI. rewrite WI in E1.
    rewrite (skipn_all2 (contents_beacon n)) in E1 by (rewrite HL, CB; lia). rewrite app_nil_r in E1.
    assert (EF2 : F = file_with A M R (range_field o p q) (write_string true (signer parts ++ repeat 0 (n - length (signer parts))))) by (rewrite <- E1; unfold file_with; rewrite <- !app_assoc; reflexivity).
    split; [rewrite EF2; unfold file_with; rewrite !len_app, FL, HL; unfold p, q, o; lia|]. split; [exact CC|]. split; [exact FA|]. split; [symmetry; exact E2|exact EF2].
Qed.
