(** Proofs about filter chains. *)
From Coq Require Import String.
From Verif Require Import Base TokModel FilterModel FilterSpec.
Local Open Scope Z_scope.

Definition nonempty (bl : list (list Z)) : list (list Z) := filter (fun b => match b with [] => false | _ => true end) bl.

Lemma concat_nonempty bl : concat (nonempty bl) = concat bl.
Proof.
  induction bl as [|[|c b] r IH]; [reflexivity|exact IH|].
  change (nonempty ((c :: b) :: r)) with ((c :: b) :: nonempty r). cbn [concat]. rewrite IH. reflexivity.
Qed.

Lemma push_all_app {S} (push : S -> list Z -> res (S * list (list Z))) a b : forall s,
  push_all push s (a ++ b) = do (s1, o1) <- push_all push s a; do (s2, o2) <- push_all push s1 b; Ok (s2, o1 ++ o2).
Proof.
  induction a as [|x a IH]; intro s; cbn [push_all app].
  - cbn [bind]. destruct (push_all push s b) as [[? ?]| | |]; reflexivity.
  - destruct (push s x) as [[s1 o1]| | |]; cbn [bind]; try reflexivity. rewrite IH.
    destruct (push_all push s1 a) as [[s2 o2]| | |]; cbn [bind]; try reflexivity.
    destruct (push_all push s2 b) as [[s3 o3]| | |]; cbn [bind]; try reflexivity.
    rewrite app_assoc. reflexivity.
Qed.

Lemma bind_ok {A B} (r : res A) (k : A -> res B) b : (do x <- r; k x) = Ok b <-> exists a, r = Ok a /\ k a = Ok b.
Proof.
  destruct r; cbn [bind]; split; intros H; try discriminate; try (destruct H as (? & ? & ?); discriminate).
  - eexists. split; [reflexivity|exact H].
  - destruct H as (a' & E & K). congruence.
Qed.

Lemma push_all_cons {S} (push : S -> list Z -> res (S * list (list Z))) s x r :
  push_all push s (x :: r) = do (s1, o1) <- push s x; do (s2, o2) <- push_all push s1 r; Ok (s2, o1 ++ o2).
Proof. reflexivity. Qed.
Lemma chain_push_nil f r s : chain_push (f :: r) s [] = Ok (s, []).
Proof. reflexivity. Qed.
Lemma chain_push_cons f r s n c b : chain_push (f :: r) (s, n) (c :: b) =
  do (s1, w) <- f_block f s (c :: b); do (n1, out) <- push_all (chain_push r) n w; Ok ((s1, n1), out).
Proof. reflexivity. Qed.

(** Filters work one after the other: the interleaving does not matter for the result. *)
Lemma push_split f r bl : forall s n out s1 n1,
  push_all (chain_push (f :: r)) (s, n) bl = Ok ((s1, n1), out) <->
  exists w, f_blocks f s (nonempty bl) = Ok (s1, w) /\ push_all (chain_push r) n w = Ok (n1, out).
Proof.
  induction bl as [|b bl IH]; intros s n out s1 n1.
  - cbn [push_all nonempty filter f_blocks]. split.
    + intro H. injection H as -> -> <-. exists []. split; reflexivity.
    + intros (w & H1 & H2). injection H1 as -> <-. cbn [push_all] in H2. injection H2 as -> <-. reflexivity.
  - destruct b as [|c b].
    + rewrite push_all_cons, chain_push_nil. cbn [bind]. change (nonempty ([] :: bl)) with (nonempty bl). rewrite <- IH.
      destruct (push_all (chain_push (f :: r)) (s, n) bl) as [[[? ?] ?]| | |]; cbn [bind app]; reflexivity.
    + change (nonempty ((c :: b) :: bl)) with ((c :: b) :: nonempty bl). cbn [f_blocks].
      rewrite push_all_cons, chain_push_cons.
      destruct (f_block f s (c :: b)) as [[s2 w2]| | |]; cbn [bind];
        try (split; [discriminate|intros (? & ? & ?); discriminate]).
      split.
      * intro H. destruct (push_all (chain_push r) n w2) as [[n2 o2]| | |] eqn:E2; cbn [bind] in H; try discriminate.
        destruct (push_all (chain_push (f :: r)) (s2, n2) bl) as [[[s3 n3] o3]| | |] eqn:E3; cbn [bind] in H; try discriminate.
        injection H as -> -> <-.
        apply IH in E3. destruct E3 as (w & W1 & W2). exists (w2 ++ w). rewrite W1. cbn [bind]. split; [reflexivity|].
        rewrite push_all_app, E2. cbn [bind]. rewrite W2. reflexivity.
      * intros (w & H1 & H2).
        destruct (f_blocks f s2 (nonempty bl)) as [[s3 w3]| | |] eqn:E3; cbn [bind] in H1; try discriminate.
        injection H1 as -> <-. rewrite push_all_app in H2.
        destruct (push_all (chain_push r) n w2) as [[n2 o2]| | |]; cbn [bind] in H2 |- *; try discriminate.
        destruct (push_all (chain_push r) n2 w3) as [[n3 o3]| | |] eqn:E4; cbn [bind] in H2; try discriminate.
        injection H2 as -> <-.
        assert (X : push_all (chain_push (f :: r)) (s2, n2) bl = Ok (s1, n1, o3)).
        { apply IH. exists w3. split; assumption. }
        rewrite X. reflexivity.
Qed.

Lemma chain_cons f fs bl out :
  chain_run (f :: fs) bl = Ok out <-> exists w, f_run f (nonempty bl) = Ok w /\ chain_run fs w = Ok out.
Proof.
  unfold chain_run, f_run. cbn [chain_begin].
  split.
  - intro H. apply bind_ok in H. destruct H as ([s n] & H0 & H).
    apply bind_ok in H0. destruct H0 as (n0 & N & H0). apply bind_ok in H0. destruct H0 as (s0 & S & H0).
    apply ok_inj in H0. injection H0 as -> ->.
    apply bind_ok in H. destruct H as ([[s1 n1] o1] & P & H). apply push_split in P. destruct P as (w & W1 & W2).
    apply bind_ok in H. destruct H as (o2 & P2 & H). cbn [chain_end fst snd] in P2.
    apply bind_ok in P2. destruct P2 as (w' & E & P2). apply bind_ok in P2. destruct P2 as ([n2 o3] & P3 & P2).
    apply bind_ok in P2. destruct P2 as (o4 & E4 & P2). apply ok_inj in P2. subst o2. apply ok_inj in H. subst out.
    exists (w ++ w'). rewrite S. cbn [bind]. rewrite W1. cbn [bind]. rewrite E. cbn [bind]. split; [reflexivity|].
    rewrite N. cbn [bind]. rewrite push_all_app, W2. cbn [bind]. rewrite P3. cbn [bind]. rewrite E4. cbn [bind].
    rewrite app_assoc. reflexivity.
  - intros (w & H1 & H2).
    apply bind_ok in H1. destruct H1 as (s & S & H1). apply bind_ok in H1. destruct H1 as ([s1 w1] & W1 & H1).
    apply bind_ok in H1. destruct H1 as (w' & E & H1). apply ok_inj in H1. subst w.
    apply bind_ok in H2. destruct H2 as (n & N & H2). apply bind_ok in H2. destruct H2 as ([n2 o] & P & H2).
    rewrite push_all_app in P. apply bind_ok in P. destruct P as ([n1 o1] & P1 & P).
    apply bind_ok in P. destruct P as ([n2' o2] & P2 & P). apply ok_inj in P. injection P as -> <-.
    apply bind_ok in H2. destruct H2 as (o3 & E3 & H2). apply ok_inj in H2. subst out.
    rewrite N. cbn [bind]. rewrite S. cbn [bind].
    assert (X : push_all (chain_push (f :: fs)) (s, n) bl = Ok ((s1, n1), o1)).
    { apply push_split. exists w1. split; assumption. }
    rewrite X. cbn [bind chain_end fst snd]. rewrite E. cbn [bind]. rewrite P2. cbn [bind]. rewrite E3. cbn [bind].
    rewrite app_assoc. reflexivity.
Qed.

Lemma chain_nil bl : chain_run [] bl = Ok bl.
Proof.
  unfold chain_run. cbn [chain_begin bind chain_end].
  assert (forall s, push_all (chain_push []) s bl = Ok (s, bl)) as H.
  { induction bl as [|b r IH]; intro s; cbn [push_all]; [reflexivity|]. cbn [chain_push bind]. rewrite IH. reflexivity. }
  rewrite H. cbn [bind]. rewrite app_nil_r. reflexivity.
Qed.

Lemma chain_app fs gs : forall bl out,
  chain_run (fs ++ gs) bl = Ok out <-> exists w, chain_run fs bl = Ok w /\ chain_run gs w = Ok out.
Proof.
  induction fs as [|f fs IH]; intros bl out; cbn [app].
  - split.
    + intro H. exists bl. split; [apply chain_nil|exact H].
    + intros (w & H1 & H2). rewrite chain_nil in H1. apply ok_inj in H1. subst. exact H2.
  - rewrite chain_cons. split.
    + intros (w & H1 & H2). apply IH in H2. destruct H2 as (w' & H2 & H3). exists w'. split; [|exact H3].
      apply chain_cons. exists w. split; assumption.
    + intros (w' & H1 & H3). apply chain_cons in H1. destruct H1 as (w & H1 & H2). exists w. split; [exact H1|].
      apply IH. exists w'. split; assumption.
Qed.

(** Writing data in any blocks to a chain gives these bytes. *)
Definition chain_gives (fs : list filt) (data out : list Z) : Prop :=
  forall bl, concat bl = data -> exists w, chain_run fs bl = Ok w /\ concat w = out.

Lemma gives_nil data : chain_gives [] data data.
Proof. intros bl H. exists bl. split; [apply chain_nil|exact H]. Qed.

Lemma gives_app fs gs a b c : chain_gives fs a b -> chain_gives gs b c -> chain_gives (fs ++ gs) a c.
Proof.
  intros H1 H2 bl E. destruct (H1 bl E) as (w & R & C). destruct (H2 w C) as (w' & R' & C').
  exists w'. split; [|exact C']. apply chain_app. exists w. split; assumption.
Qed.

Lemma gives_one f a b : (forall bl, concat bl = a -> yields f bl b) -> chain_gives [f] a b.
Proof.
  intros H bl E. destruct (H (nonempty bl)) as (w & R & C); [rewrite concat_nonempty; exact E|].
  exists w. split; [|exact C]. apply chain_cons. exists w. split; [exact R|apply chain_nil].
Qed.

Lemma stack_rev {A} (l : list A) : forall acc, fold_left (fun st f => f :: st) l acc = rev l ++ acc.
Proof.
  induction l as [|x l IH]; intro acc; cbn [fold_left rev]; [reflexivity|]. rewrite IH, <- app_assoc. reflexivity.
Qed.
Lemma encode_stack_rev fs : encode_stack fs = rev fs.
Proof. unfold encode_stack. rewrite stack_rev, app_nil_r. reflexivity. Qed.
Lemma decode_stack_id fs : decode_stack fs = fs.
Proof. unfold decode_stack. rewrite stack_rev, app_nil_r, rev_involutive. reflexivity. Qed.

Lemma chains_undo ps : Forall (fun p => undoes (snd p) (fst p)) ps -> forall data, bytes_ok data ->
  exists text, bytes_ok text /\ chain_gives (encode_stack (map fst ps)) data text /\
               chain_gives (decode_stack (map snd ps)) text data.
Proof.
  intros H data Hd. rewrite encode_stack_rev, decode_stack_id.
  induction H as [|[e d] ps Hp Hps IH].
  - exists data. split; [exact Hd|]. split; apply gives_nil.
  - destruct IH as (t1 & B1 & E1 & D1). destruct (Hp t1 B1) as (t & B & E & D). cbn [fst snd] in E, D.
    exists t. split; [exact B|]. cbn [map rev fst snd]. split.
    + apply (gives_app _ _ data t1 t); [exact E1|]. apply gives_one. exact E.
    + change (d :: map snd ps) with ([d] ++ map snd ps). apply (gives_app _ _ t t1 data); [|exact D1].
      apply gives_one. exact D.
Qed.

(** ** Reading through the decode stream *)

(** Having pushed [done], the chain is in a state from which the rest works out. *)
Lemma gives_prefix fs data out : chain_gives fs data out ->
  exists c0, chain_begin fs = Ok c0 /\
  forall done blk rest c w, concat done ++ blk ++ rest = data -> push_all (chain_push fs) c0 done = Ok (c, w) ->
    exists c1 w1, chain_push fs c blk = Ok (c1, w1) /\ push_all (chain_push fs) c0 (done ++ [blk]) = Ok (c1, w ++ w1) /\
      (exists r, out = concat (w ++ w1) ++ r) /\
      (rest = [] -> exists w2, chain_end fs c1 = Ok w2 /\ concat ((w ++ w1) ++ w2) = out).
Proof.
  intros H. destruct (H [data]) as (w0 & R & _); [cbn; apply app_nil_r|].
  unfold chain_run in R. apply bind_ok in R. destruct R as (c0 & B & _). exists c0. split; [exact B|].
  intros done blk rest c w E P.
  destruct (H (done ++ [blk] ++ match rest with [] => [] | _ => [rest] end)) as (wt & R & C).
  { rewrite !concat_app. cbn [concat]. rewrite app_nil_r. rewrite <- E. f_equal. f_equal.
    destruct rest; cbn; [reflexivity|rewrite app_nil_r; reflexivity]. }
  unfold chain_run in R. rewrite B in R. cbn [bind] in R. apply bind_ok in R. destruct R as ([c2 o1] & P1 & R).
  apply bind_ok in R. destruct R as (o2 & E2 & R). apply ok_inj in R. subst wt.
  rewrite app_assoc, push_all_app in P1. apply bind_ok in P1. destruct P1 as ([c1 ow] & P1 & P2).
  pose proof P1 as P1'.
  rewrite push_all_app, P in P1. cbn [bind] in P1. apply bind_ok in P1. destruct P1 as ([c1' w1] & P1 & Q).
  apply ok_inj in Q. injection Q as -> <-. cbn [push_all] in P1. apply bind_ok in P1. destruct P1 as ([c1' w1'] & P1 & Q).
  cbn [bind] in Q. apply ok_inj in Q. rewrite app_nil_r in Q. injection Q as -> ->.
  exists c1, w1. split; [exact P1|]. split; [exact P1'|].
  apply bind_ok in P2. destruct P2 as ([c2' o3] & P2 & Q). apply ok_inj in Q. injection Q as -> <-.
  split.
  - exists (concat o3 ++ concat o2). rewrite <- C, !concat_app, <- !app_assoc. reflexivity.
  - intros ->. cbn [push_all] in P2. apply ok_inj in P2. injection P2 as -> <-. exists o2. split; [exact E2|].
    rewrite <- C. rewrite app_nil_r. reflexivity.
Qed.

(** Invariant of a decode stream that has already delivered [sofar]. *)
Definition stream_inv (fs : list filt) (data out : list Z) (c0 : chain_st fs) (st : bstream fs) (sofar : list Z) : Prop :=
  if bs_eof st then sofar ++ bs_pending st = out /\ bs_in st = []
  else exists done w, push_all (chain_push fs) c0 done = Ok (bs_st st, w) /\ concat done ++ bs_in st = data /\
                      sofar ++ bs_pending st = concat w /\ exists r, out = concat w ++ r.

Definition measure {fs} (out : list Z) (st : bstream fs) (sofar : list Z) : nat :=
  (length out - length sofar + length (bs_in st) + (if bs_eof st then 0 else 1))%nat.

Lemma bread_step fs data out c0 st sofar size :
  (forall done blk rest c w, concat done ++ blk ++ rest = data -> push_all (chain_push fs) c0 done = Ok (c, w) ->
    exists c1 w1, chain_push fs c blk = Ok (c1, w1) /\ push_all (chain_push fs) c0 (done ++ [blk]) = Ok (c1, w ++ w1) /\
      (exists r, out = concat (w ++ w1) ++ r) /\
      (rest = [] -> exists w2, chain_end fs c1 = Ok w2 /\ concat ((w ++ w1) ++ w2) = out)) ->
  (* the state of the chain without any block, for empty data *)
  (data = [] -> exists w2, chain_end fs c0 = Ok w2 /\ concat w2 = out) ->
  stream_inv fs data out c0 st sofar -> (1 <= size)%nat ->
  exists st1 o e, bread st size = Ok (st1, o, e) /\ stream_inv fs data out c0 st1 (sofar ++ o) /\
    (e = true -> sofar ++ o = out) /\ (e = false -> (measure out st1 (sofar ++ o) < measure out st sofar)%nat).
Proof.
  intros H H0 I Hs. unfold bread.
  assert (LP : forall p : list Z, p <> [] -> (length (firstn size p) >= 1)%nat).
  { intros [|x p] Hp; [congruence|]. destruct size; [lia|]. cbn. lia. }
  destruct (bs_pending st) as [|x p] eqn:EP.
  - destruct (bs_eof st) eqn:EE.
    + exists st, [], true. split; [reflexivity|]. rewrite app_nil_r. split; [exact I|]. split; [|discriminate].
      intros _. unfold stream_inv in I. rewrite EE, EP in I. rewrite app_nil_r in I. exact (proj1 I).
    + unfold stream_inv in I. rewrite EE in I. destruct I as (done & w & P & D & O & X). rewrite EP, app_nil_r in O.
      set (blk := firstn size (bs_in st)). set (rest := skipn size (bs_in st)).
      assert (ED : concat done ++ blk ++ rest = data). { subst blk rest. rewrite firstn_skipn. exact D. }
      destruct (bs_in st) as [|y inp] eqn:EI.
      * (* nothing left: only the end *)
        assert (blk = []) as -> by (subst blk; destruct size; reflexivity).
        assert (rest = []) as -> by (subst rest; destruct size; reflexivity).
        cbn [bind]. rewrite app_nil_r in ED.
        assert (exists w2, chain_end fs (bs_st st) = Ok w2 /\ concat (w ++ w2) = out) as (w2 & E2 & C2).
        { destruct (rev done) as [|b rd] eqn:ER.
          - assert (done = []) as -> by (rewrite <- (rev_involutive done), ER; reflexivity).
            cbn [push_all] in P. apply ok_inj in P. injection P as -> <-. cbn in ED. cbn [app]. apply H0. symmetry. exact ED.
          - assert (done = rev rd ++ [b]) as Ed by (rewrite <- (rev_involutive done), ER; reflexivity).
            rewrite Ed in P, ED. pose proof P as P'. rewrite push_all_app in P. apply bind_ok in P.
            destruct P as ([c wa] & Pa & P).
            rewrite concat_app in ED. cbn [concat] in ED. rewrite app_nil_r in ED.
            destruct (H (rev rd) b [] c wa) as (c1 & w1 & Q1 & Q2 & _ & Q3); [rewrite app_nil_r; exact ED|exact Pa|].
            rewrite P' in Q2. apply ok_inj in Q2. injection Q2 as -> ->. destruct (Q3 eq_refl) as (w2 & E2 & C2).
            exists w2. split; assumption. }
        rewrite E2. cbn [bind app].
        eexists _, _, false. split; [reflexivity|]. split; [|split; [discriminate|]].
        -- unfold stream_inv. cbn [bs_eof bs_pending bs_in]. split; [|reflexivity].
           rewrite <- app_assoc, firstn_skipn, O, <- concat_app. exact C2.
        -- intros _. unfold measure. cbn [bs_eof bs_in]. rewrite EE, EI. rewrite app_length. cbn [length]. lia.
      * assert (NB : blk <> []). { subst blk. destruct size; [lia|]. cbn. discriminate. }
        destruct (H done blk rest (bs_st st) w ED P) as (c1 & w1 & Q1 & Q2 & (r & Q4) & Q3).
        assert ((match blk with [] => Ok (bs_st st, []) | _ :: _ => chain_push fs (bs_st st) blk end) = Ok (c1, w1)) as ->.
        { destruct blk; [congruence|exact Q1]. }
        cbn [bind].
        assert (LR : (length rest < length (y :: inp))%nat).
        { subst rest. rewrite skipn_length. cbn [length]. lia. }
        destruct rest as [|z rest'] eqn:ERest.
        -- destruct (Q3 eq_refl) as (w2 & E2 & C2). rewrite E2. cbn [bind].
           eexists _, _, false. split; [reflexivity|]. split; [|split; [discriminate|]].
           ++ unfold stream_inv. cbn [bs_eof bs_pending bs_in]. split; [|reflexivity].
              rewrite <- app_assoc, firstn_skipn, O, <- concat_app. rewrite <- C2. rewrite app_assoc. reflexivity.
           ++ intros _. unfold measure. cbn [bs_eof bs_in]. rewrite EE, EI, app_length. cbn [length] in *. lia.
        -- cbn [bind]. rewrite app_nil_r.
           eexists _, _, false. split; [reflexivity|]. split; [|split; [discriminate|]].
           ++ unfold stream_inv. cbn [bs_eof bs_pending bs_in bs_st]. exists (done ++ [blk]), (w ++ w1).
              split; [exact Q2|]. split.
              { rewrite concat_app. cbn [concat]. rewrite app_nil_r, <- app_assoc. exact ED. }
              split; [rewrite <- app_assoc, firstn_skipn, O, <- concat_app; reflexivity|]. exists r. exact Q4.
           ++ intros _. unfold measure. cbn [bs_eof bs_in]. rewrite EE, EI, app_length. cbn [length] in *. lia.
  - eexists _, _, false. split; [reflexivity|].
    assert (I' : stream_inv fs data out c0 (mk_bs (skipn size (x :: p)) (bs_eof st) (bs_in st) (bs_st st)) (sofar ++ firstn size (x :: p))).
    { unfold stream_inv in I |- *. cbn [bs_eof bs_pending bs_in bs_st]. rewrite EP in I.
      destruct (bs_eof st).
      - rewrite <- app_assoc, firstn_skipn. exact I.
      - destruct I as (done & w & P & D & O & X). exists done, w. rewrite <- app_assoc, firstn_skipn. auto. }
    split; [exact I'|]. split; [discriminate|].
    intros _. unfold measure. cbn [bs_eof bs_in].
    pose proof (LP (x :: p) ltac:(discriminate)) as L1. rewrite app_length.
    assert (length (sofar ++ x :: p) <= length out)%nat as L2.
    { unfold stream_inv in I. rewrite EP in I. destruct (bs_eof st).
      - rewrite (proj1 I). lia.
      - destruct I as (done & w & P & D & O & (r & X)). rewrite O, X, app_length. lia. }
    rewrite app_length in L2.
    assert (length (firstn size (x :: p)) <= length (x :: p))%nat by (rewrite firstn_length; lia). lia.
Qed.

Lemma stream_prefix fs data out c0 st sofar : stream_inv fs data out c0 st sofar -> exists r, out = sofar ++ r.
Proof.
  unfold stream_inv. destruct (bs_eof st).
  - intros [E _]. exists (bs_pending st). symmetry. exact E.
  - intros (done & w & P & D & O & (r & X)). exists (bs_pending st ++ r). rewrite X, <- O, <- app_assoc. reflexivity.
Qed.

Lemma breads_all fs data out c0 :
  (forall done blk rest c w, concat done ++ blk ++ rest = data -> push_all (chain_push fs) c0 done = Ok (c, w) ->
    exists c1 w1, chain_push fs c blk = Ok (c1, w1) /\ push_all (chain_push fs) c0 (done ++ [blk]) = Ok (c1, w ++ w1) /\
      (exists r, out = concat (w ++ w1) ++ r) /\
      (rest = [] -> exists w2, chain_end fs c1 = Ok w2 /\ concat ((w ++ w1) ++ w2) = out)) ->
  (data = [] -> exists w2, chain_end fs c0 = Ok w2 /\ concat w2 = out) ->
  forall sizes st sofar, stream_inv fs data out c0 st sofar -> Forall (fun n => (1 <= n)%nat) sizes ->
  exists o e, breads st sizes = Ok (o, e) /\ (exists r, out = sofar ++ o ++ r) /\ (e = true -> sofar ++ o = out) /\
    ((measure out st sofar < length sizes)%nat -> e = true).
Proof.
  intros H H0 sizes. induction sizes as [|n sizes IH]; intros st sofar I F.
  - exists [], false. split; [reflexivity|]. split.
    + destruct (stream_prefix _ _ _ _ _ _ I) as (r & E). exists r. exact E.
    + split; [discriminate|]. cbn. lia.
  - pose proof (Forall_inv F) as Fn. apply Forall_inv_tail in F.
    destruct (bread_step fs data out c0 st sofar n H H0 I Fn) as (st1 & o & e & R & I1 & E1 & M).
    cbn [breads]. rewrite R. cbn [bind]. destruct e.
    + exists o, true. split; [reflexivity|]. specialize (E1 eq_refl). split; [exists []; rewrite app_nil_r; auto|]. split; auto.
    + destruct (IH st1 (sofar ++ o) I1 F) as (o2 & e2 & R2 & (r & X) & E2 & L2). rewrite R2. cbn [bind].
      exists (o ++ o2), e2. split; [reflexivity|]. rewrite <- app_assoc in X, E2.
      split; [exists r; rewrite <- app_assoc; exact X|]. split; [exact E2|].
      intro L. apply L2. specialize (M eq_refl). cbn [length] in L. lia.
Qed.

(** Reading with requests of any sizes delivers the decoded data. *)
Lemma decode_reads fs data out sizes : fs <> [] -> chain_gives (decode_stack fs) data out ->
  Forall (fun n => (1 <= n)%nat) sizes ->
  exists o e, decode_read fs data sizes = Ok (o, e) /\ (exists r, out = o ++ r) /\ (e = true -> o = out) /\
    ((length out + length data + 2 <= length sizes)%nat -> e = true).
Proof.
  intros N G F. unfold decode_read. destruct fs as [|f fs]; [congruence|].
  destruct (gives_prefix _ _ _ G) as (c0 & B & H). rewrite B. cbn [bind].
  assert (H0 : data = [] -> exists w2, chain_end (decode_stack (f :: fs)) c0 = Ok w2 /\ concat w2 = out).
  { intros ->. destruct (G []) as (w & R & C); [reflexivity|]. unfold chain_run in R. rewrite B in R. cbn [bind push_all] in R.
    apply bind_ok in R. destruct R as (w2 & E & R). apply ok_inj in R. subst w. exists w2. split; [exact E|exact C]. }
  destruct (breads_all _ data out c0 H H0 sizes (mk_bs [] false data c0) []) as (o & e & R & P & Q & L).
  - unfold stream_inv. cbn [bs_eof bs_pending bs_in bs_st]. exists [], []. cbn. repeat split. exists out. reflexivity.
  - exact F.
  - exists o, e. split; [exact R|]. split; [exact P|]. split; [exact Q|]. intro X. apply L.
    unfold measure. cbn [bs_in bs_eof length]. lia.
Qed.
