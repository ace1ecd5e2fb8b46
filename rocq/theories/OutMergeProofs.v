(** Appending outlines: lists of siblings *)
From Coq Require Import Lia.
From Verif Require Import Base OutlineModel OutlineSpec OutlineProofs OutlineOpProofs OutlinePropLemmas OutMergeModel.
Local Open Scope Z_scope.

Lemma change_inv s i f s' : change s i f = Ok s' -> exists m d, mems s i = Some m /\ dics s i = Some d /\ mems s' = upd (mems s) i (Some (f m)) /\ dics s' = upd (dics s) i (Some (f d)).
Proof.
  unfold change. destruct (mems s i) as [m|]; [|discriminate]. destruct (dics s i) as [d|]; [|discriminate]. intro H. apply ok_inj in H. subst. exists m, d. repeat split.
Qed.
Lemma upd_same {A} f i (v : option A) : upd f i v i = v.
Proof. unfold upd. rewrite Z.eqb_refl. reflexivity. Qed.
Lemma upd_other {A} f i j (v : option A) : j <> i -> upd f i v j = f j.
Proof. unfold upd. intro N. destruct (Z.eqb_spec j i); [contradiction|reflexivity]. Qed.

(** Loading changes only what is reached *)
Lemma load_far diff d : (forall j l, diff <= j -> d j = Some l -> (forall f, first l = Some f -> diff <= f) /\ (forall n, next l = Some n -> diff <= n)) ->
  forall g i p q a a', diff <= i -> load g d i p q a = Ok a' -> forall j, j < diff -> fst a' j = fst a j.
Proof.
  intros C. induction g as [|g IH]; intros i p q a a' I L j J; [discriminate|]. cbn [load] in L. destruct (d i) as [l|] eqn:D; [|discriminate].
  destruct (C i l I D) as [CF CN].
  destruct (match first l with Some f => load g d f (Some i) None a | None => Ok a end) as [a1| | |] eqn:E1; try discriminate. cbn [bind] in L.
  destruct (match next l with Some n => load g d n p (Some i) a1 | None => Ok a1 end) as [a2| | |] eqn:E2; try discriminate. cbn [bind] in L.
  apply ok_inj in L. subst a'. cbn [fst]. rewrite upd_other by lia.
  assert (A1 : fst a1 j = fst a j) by (destruct (first l) as [f|]; [exact (IH _ _ _ _ _ (CF f eq_refl) E1 j J)|apply ok_inj in E1; subst; reflexivity]).
  destruct (next l) as [n|]; [rewrite (IH _ _ _ _ _ (CN n eq_refl) E2 j J); exact A1|apply ok_inj in E2; subst; exact A1].
Qed.

Lemma chain_ext f g l : forall x, (forall i, In i l -> f i = g i) -> chain f x l -> chain g x l.
Proof.
  induction l as [|i l IH]; intros x E C; cbn in *; [exact C|]. destruct C as [-> C]. split; [reflexivity|]. rewrite <- (E i) by (left; reflexivity). apply IH; [|exact C]. intros; apply E; right; assumption.
Qed.
(** A list that is continued after its last element *)
Lemma chain_more f g y l2 : forall l1 x, NoDup l1 -> chain f x l1 -> l1 <> [] ->
  (forall i, In i l1 -> Some i <> last_opt l1 -> g i = f i) -> (forall i, last_opt l1 = Some i -> g i = y) -> chain g y l2 -> chain g x (l1 ++ l2).
Proof.
  induction l1 as [|i l1 IH]; intros x ND C NE A B C2; [contradiction|]. cbn [chain app] in *. destruct C as [-> C]. split; [reflexivity|].
  apply NoDup_cons_iff in ND. destruct ND as [NI ND]. destruct l1 as [|k l1].
  - cbn [app]. rewrite (B i eq_refl). exact C2.
  - assert (LE : last_opt (i :: k :: l1) = last_opt (k :: l1)).
    { unfold last_opt. cbn [rev]. destruct (rev l1); reflexivity. }
    assert (IN : forall z, last_opt (k :: l1) = Some z -> In z (k :: l1)).
    { intros z H. unfold last_opt in H. apply in_rev. destruct (rev (k :: l1)); [discriminate|]. injection H as ->. left. reflexivity. }
    rewrite (A i (or_introl eq_refl)).
    + apply IH; [exact ND|exact C|discriminate| |rewrite <- LE; exact B|exact C2]. intros z Z1 Z2. apply A; [right; exact Z1|rewrite LE; exact Z2].
    + rewrite LE. intro H. symmetry in H. apply IN in H. contradiction.
Qed.
Lemma chain_shift f g diff l : forall x, (forall i, In i l -> g (i + diff) = shift_ref diff (f i)) -> chain f x l -> chain g (shift_ref diff x) (map (fun i => i + diff) l).
Proof.
  induction l as [|i l IH]; intros x E C; cbn [map chain] in *; [rewrite C; reflexivity|]. destruct C as [-> C]. split; [reflexivity|]. rewrite (E i (or_introl eq_refl)). apply IH; [|exact C].
  intros z Z. apply E. right. exact Z.
Qed.

Lemma change_keeps s i f s' (p : links -> option Z) : change s i f = Ok s' -> (forall l, p (f l) = p l) -> forall j, of (dics s') p j = of (dics s) p j.
Proof.
  intros C P j. destruct (change_inv _ _ _ _ C) as (m & d & M & D & _ & E). unfold of. rewrite E. unfold upd. destruct (Z.eqb_spec j i); [subst; rewrite D; apply P|reflexivity].
Qed.
Lemma change_mem s i f s' j : change s i f = Ok s' -> j <> i -> mems s' j = mems s j.
Proof. intros C N. destruct (change_inv _ _ _ _ C) as (m & d & _ & _ & E & _). rewrite E. apply upd_other, N. Qed.
Lemma change_sets s i f s' (p : links -> option Z) v : change s i f = Ok s' -> (forall l, p (f l) = v) -> of (dics s') p i = v.
Proof. intros C P. destruct (change_inv _ _ _ _ C) as (m & d & M & D & _ & E). unfold of. rewrite E, upd_same. apply P. Qed.
Lemma change_next s i v s' j : set_next s i v = Ok s' -> of (dics s') next j = if j =? i then v else of (dics s) next j.
Proof.
  intro C. destruct (change_inv _ _ _ _ C) as (m & d & M & D & _ & E). unfold of. rewrite E. unfold upd. destruct (Z.eqb_spec j i); reflexivity.
Qed.
Lemma bind_ok {A B} (r : res A) (k : A -> res B) y : (do x <- r; k x) = Ok y -> exists x, r = Ok x /\ k x = Ok y.
Proof. destruct r; try discriminate. intro H. eexists. split; [reflexivity|exact H]. Qed.

Lemma chain_above f l : forall x, (forall i y, f i = Some y -> 0 <= y) -> chain f x l -> (forall y, x = Some y -> 0 <= y) -> forall i, In i l -> 0 <= i.
Proof.
  induction l as [|k l IH]; intros x F C X i I; [contradiction|]. destruct C as [-> C]. destruct I as [->|I]; [apply X; reflexivity|]. apply (IH _ F C); [apply F|exact I].
Qed.
(** What linking an item [it] as the last child of [r] does to the next items and the first one *)
Lemma link_next s r it s' m : mems s r = Some m -> (forall x, last_ m = Some x -> x <> r) -> it <> r -> link_child s r it = Ok s' ->
  (forall j, of (dics s') next j = if match last_ m with Some x => j =? x | None => false end then Some it else of (dics s) next j) /\
  of (dics s') first r = (match first m with None => Some it | f => f end) /\ of (dics s') last_ r = Some it.
Proof.
  intros M X I L. unfold link_child in L. unfold item in L at 1. rewrite M in L. cbn [bind] in L.
  apply bind_ok in L. destruct L as (s2 & L1 & L). apply bind_ok in L. destruct L as (m2 & L2 & L). apply bind_ok in L. destruct L as (s3 & L3 & L).
  assert (P : mems s2 r = Some m /\ forall j, of (dics s2) next j = if match last_ m with Some x => j =? x | None => false end then Some it else of (dics s) next j).
  { destruct (last_ m) as [x|].
    - apply bind_ok in L1. destruct L1 as (s1 & N1 & N2). specialize (X x eq_refl). split.
      + rewrite (change_mem _ _ _ _ r N2) by congruence. rewrite (change_mem _ _ _ _ r N1) by congruence. exact M.
      + intro j. rewrite (change_keeps _ _ _ _ next N2) by reflexivity. apply (change_next _ _ _ _ _ N1).
    - apply ok_inj in L1. subst. split; [exact M|reflexivity]. }
  destruct P as [M2 N]. unfold item in L2. rewrite M2 in L2. apply ok_inj in L2. subst m2. split; [|split].
  - intro j. rewrite (change_keeps _ _ _ _ next L) by reflexivity. rewrite (change_keeps _ _ _ _ next L3) by reflexivity. apply N.
  - rewrite (change_keeps _ _ _ _ first L) by reflexivity. apply (change_sets _ _ _ _ first _ L3). reflexivity.
  - apply (change_sets _ _ _ _ last_ _ L). reflexivity.
Qed.

Lemma insert_links fuel s this it s' : insert_child fuel s this it = Ok s' -> link_child s this it = Ok s'.
Proof.
  unfold insert_child. intro H. apply bind_ok in H. destruct H as (p & _ & H). destruct (same_ptr (fst p) (snd p)); [discriminate|exact H].
Qed.

Lemma append_chain fuel s K r o K' ro diff s' :
  matches s K -> K None = [r] -> matches o K' -> K' None = [ro] ->
  (forall j, dics s j <> None -> j < diff) -> (forall j l x, dics o j = Some l -> first l = Some x \/ next l = Some x -> 0 <= x) ->
  append_outlines fuel s (Some r) (Some (ro, o)) diff = Ok s' ->
  chain (of (dics s') next) (of (dics s') first r) (K (Some r) ++ map (fun i => i + diff) (K' (Some ro))) /\
  (K' (Some ro) <> [] -> of (dics s') last_ r = shift_ref diff (hd_error (K' (Some ro)))).
Proof.
  intros (F & LM & LD & LV) R (F' & LM' & LD' & LV') R' TOP NN A.
  assert (Mr : mems s r = Some (place K None [] r [])) by (apply LM; exact R).
  assert (Dr : dics s r = Some (place K None [] r [])) by (apply LD; exact R).
  assert (Mo : mems o ro = Some (place K' None [] ro [])) by (apply LM'; exact R').
  assert (Do : dics o ro = Some (place K' None [] ro [])) by (apply LD'; exact R').
  assert (RD : r < diff) by (apply TOP; rewrite Dr; discriminate).
  destruct (layer_linked (dics s) K None r LD ltac:(rewrite R; left; reflexivity)) as (C1 & _ & _).
  destruct (layer_linked (dics o) K' None ro LD' ltac:(rewrite R'; left; reflexivity)) as (C2 & _ & _).
  set (D := merged (dics s) (dics o) diff).
  assert (DS : forall j l, dics s j = Some l -> D j = Some l) by (intros j l H; unfold D, merged; rewrite H; reflexivity).
  assert (DO : forall j, diff <= j -> D j = option_map (shift diff) (dics o (j - diff))).
  { intros j J. unfold D, merged. destruct (dics s j) eqn:E; [|reflexivity]. assert (j < diff) by (apply TOP; rewrite E; discriminate). lia. }
  destruct F as (FN & FU & _ & _). destruct F' as (FN' & FU' & _ & _).
  assert (OWN : forall i, In i (K (Some r)) -> of D next i = of (dics s) next i /\ i < diff).
  { intros i I. apply in_split in I. destruct I as (a & b & I). pose proof (LD _ _ _ _ I) as H. split; [unfold of; rewrite (DS _ _ H), H; reflexivity|]. apply TOP. rewrite H. discriminate. }
  assert (CL : forall j l, diff <= j -> D j = Some l -> (forall f, first l = Some f -> diff <= f) /\ (forall n, next l = Some n -> diff <= n)).
  { intros j l J H. rewrite (DO j J) in H. destruct (dics o (j - diff)) as [lo|] eqn:E; [|discriminate]. injection H as <-. cbn [shift first next].
    split; intros x X; unfold shift_ref in X.
    - destruct (first lo) as [y|] eqn:Y; [|discriminate]. injection X as <-. pose proof (NN _ _ _ E (or_introl Y)). lia.
    - destruct (next lo) as [y|] eqn:Y; [|discriminate]. injection X as <-. pose proof (NN _ _ _ E (or_intror Y)). lia. }
  unfold append_outlines in A. unfold item in A at 1. rewrite Mo in A. cbn [bind first place] in A. fold D in A.
  destruct (K' (Some ro)) as [|f L'] eqn:KO; cbn [hd_error] in A.
  - apply ok_inj in A. subst s'. cbn [dics map]. rewrite app_nil_r. split; [|intro; contradiction].
    replace (of D first r) with (of (dics s) first r) by (unfold of; rewrite Dr, (DS _ _ Dr); reflexivity).
    apply (chain_ext (of (dics s) next)); [|exact C1]. intros i I. symmetry. apply OWN, I.
  - apply bind_ok in A. destruct A as (rt & A0 & A). apply bind_ok in A0. destruct A0 as (x & A0 & E0). apply ok_inj in E0. subst rt.
    destruct fuel as [|fu]; [discriminate|]. cbn [last_root] in A0. unfold item in A0. rewrite Mr in A0. cbn [bind next place hd_error] in A0. apply ok_inj in A0. subst x.
    apply bind_ok in A. destruct A as (a & L & A). apply insert_links in A.
    assert (F0 : 0 <= f). { apply (NN _ _ f Do). left. cbn [place first]. rewrite KO. reflexivity. }
    assert (FD : diff <= f + diff) by lia.
    assert (M1 : mems (mk_ost (fst a) D (diff + top o)) r = Some (place K None [] r [])).
    { cbn [mems]. rewrite (load_far diff D CL _ _ _ _ _ _ FD L r RD). exact Mr. }
    assert (X : forall x, last_ (place K None [] r []) = Some x -> x <> r).
    { intros x H E. subst x. cbn [place last_] in H. assert (I : In r (K (Some r))).
      { unfold last_opt in H. apply in_rev. destruct (rev (K (Some r))); [discriminate|]. injection H as ->. left. reflexivity. }
      assert (Some r = None) by (apply (FU _ _ r I); rewrite R; left; reflexivity). discriminate. }
    assert (NR : f + diff <> r) by lia. destruct (link_next _ _ _ _ _ M1 X NR A) as (N & FI & LA). cbn [place last_ first dics] in N, FI, LA. split; [|intros _; exact LA].
    assert (C3 : chain (of (dics s') next) (Some (f + diff)) (map (fun i => i + diff) (f :: L'))).
    { apply (chain_shift (of (dics o) next) (of (dics s') next) diff (f :: L') (Some f)).
      - intros i I.
        assert (I0 : 0 <= i).
        { apply (chain_above (of (dics o) next) (f :: L') (of (dics o) first ro)); [|exact C2| |exact I].
          - intros j y Y. unfold of in Y. destruct (dics o j) as [lo|] eqn:E; [|discriminate]. exact (NN _ _ _ E (or_intror Y)).
          - intros y Y. unfold of in Y. rewrite Do in Y. exact (NN _ _ _ Do (or_introl Y)). }
        rewrite N. assert (NX : match last_opt (K (Some r)) with Some x => i + diff =? x | None => false end = false).
        { destruct (last_opt (K (Some r))) as [x|] eqn:E; [|reflexivity]. apply Z.eqb_neq.
          assert (In x (K (Some r))) by (unfold last_opt in E; apply in_rev; destruct (rev (K (Some r))); [discriminate|]; injection E as ->; left; reflexivity).
          destruct (OWN x H). lia. }
        rewrite NX. unfold of. rewrite (DO (i + diff)) by lia. replace (i + diff - diff) with i by lia. destruct (dics o i); reflexivity.
      - destruct C2 as [C2 C2']. split; [reflexivity|exact C2']. }
    destruct (K (Some r)) as [|k0 L0] eqn:KR.
    + cbn [hd_error] in FI. rewrite FI. exact C3.
    + assert (FI' : of (dics s') first r = of (dics s) first r) by (rewrite FI; unfold of; rewrite Dr; cbn [place first]; rewrite KR; reflexivity).
      rewrite FI'. apply (chain_more (of (dics s) next) _ (Some (f + diff))); [rewrite <- KR; apply FN|exact C1|discriminate| | |exact C3].
      * intros i I NL. rewrite N. destruct (last_opt (k0 :: L0)) as [x|]; [|apply OWN, I]. destruct (Z.eqb_spec i x); [subst; contradiction|apply OWN, I].
      * intros i IL. rewrite N, IL, Z.eqb_refl. reflexivity.
Qed.
