(** Outlines: the calls keep the links right *)
From Verif Require Import Base ChainProofs OutlineModel OutlineSpec.
Local Open Scope Z_scope.

Lemma last_opt_app l x : last_opt (l ++ [x]) = Some x.
Proof. unfold last_opt. rewrite rev_app_distr. reflexivity. Qed.
Lemma last_opt_cons x l : l <> [] -> last_opt (x :: l) = last_opt l.
Proof. unfold last_opt. cbn [rev]. intros N. destruct (rev l) eqn:E; [|reflexivity]. apply (f_equal (@rev Z)) in E. rewrite rev_involutive in E. cbn in E. congruence. Qed.
Lemma last_opt_app_ne a b : b <> [] -> last_opt (a ++ b) = last_opt b.
Proof. intros N. destruct (exists_last N) as (i & z & ->). rewrite app_assoc, !last_opt_app. reflexivity. Qed.
Lemma last_opt_some l x : last_opt l = Some x -> exists i, l = i ++ [x].
Proof. destruct l as [|y l] using rev_ind; [discriminate|]. rewrite last_opt_app. intros [= ->]. eauto. Qed.
Lemma last_opt_none l : last_opt l = None -> l = [].
Proof. destruct l as [|y l] using rev_ind; [reflexivity|]. rewrite last_opt_app. discriminate. Qed.
Lemma upd_same {A} (f : Z -> option A) i v : upd f i v i = v.
Proof. unfold upd. rewrite Z.eqb_refl. reflexivity. Qed.
Lemma upd_other {A} (f : Z -> option A) i v j : j <> i -> upd f i v j = f j.
Proof. unfold upd. intros N. destruct (Z.eqb_spec j i); congruence. Qed.
Ltac ups := repeat (rewrite upd_same || (rewrite upd_other by (assumption || congruence || lia))).
Lemma change_ok s i f m d : mems s i = Some m -> dics s i = Some d ->
  change s i f = Ok (mk_ost (upd (mems s) i (Some (f m))) (upd (dics s) i (Some (f d))) (top s)).
Proof. unfold change. intros -> ->. reflexivity. Qed.
Lemma item_ok s i m : mems s i = Some m -> item s i = Ok m.
Proof. unfold item. intros ->. reflexivity. Qed.

Definition peq (p q : option Z) : {p = q} + {p <> q}.
Proof. decide equality. apply Z.eq_dec. Defined.
Lemma NoDup_app_one (l : list Z) x : NoDup l -> ~ In x l -> NoDup (l ++ [x]).
Proof. intros N I. apply NoDup_rev in N. rewrite <- (rev_involutive (l ++ [x])). apply NoDup_rev. rewrite rev_app_distr. cbn [rev app]. constructor; [rewrite <- in_rev; exact I|exact N]. Qed.
Lemma NoDup_mid (a b : list Z) x : NoDup (a ++ b) -> ~ In x (a ++ b) -> NoDup (a ++ x :: b).
Proof. intros N I. apply NoDup_Add with (a := x) (l := a ++ b); [apply Add_app|]. auto. Qed.
(** Two lists with the same element *)
Lemma app_split {A} (a b c d : list A) x : NoDup (a ++ x :: b) -> a ++ x :: b = c ++ x :: d -> a = c /\ b = d.
Proof.
  revert c. induction a as [|y a IH]; intros [|z c] N E; cbn [app] in *.
  - injection E as ->. auto.
  - injection E as -> E. subst b. apply NoDup_cons_iff in N as [N _]. exfalso. apply N, in_app_iff. right. left. reflexivity.
  - injection E as -> E. apply NoDup_cons_iff in N as [N _]. exfalso. apply N, in_app_iff. right. left. reflexivity.
  - injection E as -> E. apply NoDup_cons_iff in N as [_ N]. destruct (IH c N E) as [-> ->]. auto.
Qed.
Lemma in_place (K : family) q i : In i (K q) -> exists a b, K q = a ++ i :: b.
Proof. apply in_split. Qed.

(** ** CreateChild *)
Lemma forest_child K n i q K' : forest K n -> In i (K q) -> K' (Some i) = K (Some i) ++ [n] -> (forall p, p <> Some i -> K' p = K p) -> forest K' (n + 1).
Proof.
  intros (F1 & F2 & F3 & F4) I E O. assert (IN : forall p j, In j (K' p) -> In j (K p) \/ (p = Some i /\ j = n)).
  { intros p j J. destruct (peq p (Some i)) as [->|N]; [rewrite E in J; apply in_app_iff in J as [J|[J|[]]]; auto|rewrite O in J by exact N; auto]. }
  assert (IN' : forall p j, In j (K p) -> In j (K' p)).
  { intros p j J. destruct (peq p (Some i)) as [->|N]; [rewrite E; apply in_app_iff; auto|rewrite O by exact N; exact J]. }
  split; [|split; [|split]].
  - intros p. destruct (peq p (Some i)) as [->|N]; [|rewrite O by exact N; apply F1]. rewrite E. apply NoDup_app_one; [apply F1|]. intros X. apply F4 in X. lia.
  - intros p p' j A B. apply IN in A as [A|[Ap Aj]]; apply IN in B as [B|[Bp Bj]]; [eapply F2; eassumption|apply F4 in A; lia|apply F4 in B; lia|congruence].
  - intros p j A. apply IN in A as [A|[A ->]]; [destruct (F3 p j A) as [L (r & R)]; split; [exact L|exists r; apply IN', R]|]. injection A as ->. split; [apply (F4 q), I|exists q; apply IN', I].
  - intros p j A. apply IN in A as [A|[_ ->]]; [apply F4 in A|]; lia.
Qed.

Lemma child_layer K n i q K' d d' : forest K n -> In i (K q) -> K' (Some i) = K (Some i) ++ [n] -> (forall p, p <> Some i -> K' p = K p) -> layer d K ->
  d' n = Some (mk_links (Some i) (last_opt (K (Some i))) None None None) ->
  (forall l, d i = Some l -> d' i = Some (mk_links (up l) (prev l) (next l) (hd_error (K (Some i) ++ [n])) (Some n))) ->
  (forall x l, last_opt (K (Some i)) = Some x -> d x = Some l -> d' x = Some (mk_links (up l) (prev l) (Some n) (first l) (last_ l))) ->
  (forall j, j <> n -> j <> i -> last_opt (K (Some i)) <> Some j -> d' j = d j) -> layer d' K'.
Proof.
  intros (F1 & F2 & F3 & F4) I E O L Dn Di Dx Do p a j b P.
  assert (NK : K (Some n) = []).
  { destruct (K (Some n)) as [|x t] eqn:X; [reflexivity|]. destruct (F3 n x) as [_ (r & R)]; [rewrite X; left; reflexivity|]. apply F4 in R. lia. }
  assert (IN : i <> n) by (apply F4 in I; lia).
  assert (KN : K' (Some n) = []) by (rewrite O by congruence; exact NK).
  destruct (Z.eq_dec j n) as [->|Jn].
  - (* the new item *)
    assert (p = Some i) as ->. { destruct (peq p (Some i)) as [->|N]; [reflexivity|]. rewrite O in P by exact N. assert (X : In n (K p)) by (rewrite P; apply in_app_iff; right; left; reflexivity). apply F4 in X. lia. }
    rewrite E in P. assert (ND : NoDup (K (Some i) ++ n :: [])) by (apply NoDup_app_one; [apply F1|intros X; apply F4 in X; lia]).
    destruct (app_split _ _ _ _ _ ND P) as [<- <-]. rewrite Dn. unfold place. rewrite KN. reflexivity.
  - (* an old item; its old place *)
    assert (OLD : exists b', K p = a ++ j :: b' /\ (b = b' /\ (p <> Some i \/ exists y, b' <> [] /\ y = 0) \/ p = Some i /\ b = b' ++ [n])).
    { destruct (peq p (Some i)) as [->|N]; [|exists b; rewrite <- O by exact N; split; [exact P|left; auto]]. rewrite E in P. destruct b as [|z b] using rev_ind.
      - apply app_inj_tail in P as [_ P]. congruence.
      - clear IHb. rewrite app_comm_cons, app_assoc in P. apply app_inj_tail in P as [P <-]. exists b. split; [exact P|right; auto]. }
    destruct OLD as (b' & PO & C). pose proof (L p a j b' PO) as LJ.
    assert (UP : forall x, In x (K (Some i)) -> x <> i) by (intros x X; apply F3 in X as [X _]; lia).
    destruct (Z.eq_dec j i) as [->|Ji].
    + rewrite (Di _ LJ). unfold place. cbn [up prev next]. rewrite E, last_opt_app.
      destruct C as [[-> _]|[-> ->]]; [reflexivity|]. exfalso. apply (UP i); [rewrite PO; apply in_app_iff; right; left; reflexivity|reflexivity].
    + assert (KJ : K' (Some j) = K (Some j)) by (apply O; congruence). unfold place. rewrite KJ.
      destruct (last_opt (K (Some i))) as [x|] eqn:LX; [destruct (Z.eq_dec x j) as [->|XJ]|].
      * (* the old last child *)
        assert (p = Some i) as ->. { apply (F2 p (Some i) j); [rewrite PO; apply in_app_iff; right; left; reflexivity|]. apply last_opt_some in LX as (t & ->). apply in_app_iff. right. left. reflexivity. }
        assert (b' = []) as ->. { apply last_opt_some in LX as (t & T). rewrite T in PO. assert (ND : NoDup (t ++ j :: [])) by (rewrite <- T; apply F1). apply (app_split _ _ _ _ _ ND) in PO as [_ <-]. reflexivity. }
        rewrite (Dx j _ eq_refl LJ). unfold place. cbn [up prev next first last_]. destruct C as [[-> [C|(y & C & _)]]|[_ ->]]; [congruence|congruence|reflexivity].
      * rewrite Do by congruence. rewrite LJ. unfold place. destruct C as [[-> _]|[-> ->]]; [reflexivity|].
        destruct b' as [|z b']; [|reflexivity]. rewrite PO in LX. rewrite last_opt_app in LX. congruence.
      * rewrite Do by congruence. rewrite LJ. unfold place. destruct C as [[-> _]|[-> ->]]; [reflexivity|]. apply last_opt_none in LX. rewrite LX in PO. destruct a; discriminate.
Qed.
Definition kids_set (K : family) (p : option Z) (l : list Z) : family := fun q => if peq q p then l else K q.
Lemma kids_same K p l : kids_set K p l p = l.
Proof. unfold kids_set. destruct (peq p p); congruence. Qed.
Lemma kids_other K p l q : q <> p -> kids_set K p l q = K q.
Proof. unfold kids_set. destruct (peq q p); congruence. Qed.
Lemma child_ok s K i q : matches s K -> In i (K q) -> exists s' K', create_child s i = Ok (top s, s') /\ step K (top s) (CChild i) K' (top s') /\ matches s' K'.
Proof.
  intros (F & LM & LD & LV) I. set (n := top s). destruct (in_place K q i I) as (a & b & P). pose proof (LM q a i b P) as MI. pose proof (LD q a i b P) as DI.
  pose proof F as (F1 & F2 & F3 & F4). assert (IN : i <> n) by (apply F4 in I; unfold n; lia).
  assert (KU : forall x, In x (K (Some i)) -> x <> i /\ x <> n) by (intros x X; pose proof (F4 _ _ X); apply F3 in X as [X _]; unfold n; lia).
  set (K' := kids_set K (Some i) (K (Some i) ++ [n])). assert (E : K' (Some i) = K (Some i) ++ [n]) by apply kids_same. assert (O : forall p, p <> Some i -> K' p = K p) by (intros p; apply kids_other).
  unfold create_child. rewrite (item_ok s i _ MI). cbn [bind new_item]. fold n. unfold link_child. set (s1 := mk_ost _ _ _).
  assert (M1 : mems s1 i = Some (place K q a i b)) by (cbn; ups; exact MI). rewrite (item_ok s1 i _ M1). cbn [bind]. cbn [place last_].
  destruct (last_opt (K (Some i))) as [x|] eqn:LX.
  - pose proof LX as LX'. apply last_opt_some in LX' as (t & T). assert (XI : In x (K (Some i))) by (rewrite T; apply in_app_iff; right; left; reflexivity). destruct (KU x XI) as [Xi Xn].
    pose proof (LM (Some i) t x [] T) as MX. pose proof (LD (Some i) t x [] T) as DX.
    unfold set_next. rewrite (change_ok s1 x _ (place K (Some i) t x []) (place K (Some i) t x [])) by (cbn; ups; assumption). cbn [bind].
    unfold set_prev. erewrite change_ok; [|cbn; ups; reflexivity|cbn; ups; reflexivity]. cbn [bind up prev next first last_].
    erewrite item_ok; [|cbn; ups; exact MI]. cbn [bind]. unfold set_first. erewrite change_ok; [|cbn; ups; exact MI|cbn; ups; exact DI]. cbn [bind].
    unfold set_last. erewrite change_ok; [|cbn; ups; reflexivity|cbn; ups; reflexivity]. cbn [bind mems dics top up prev next first last_]. eexists _, K'. split; [reflexivity|]. cbn [top]. split; [eapply s_child; eassumption|].
    assert (HF : match first (place K q a i b) with Some f => Some f | None => Some n end = hd_error (K (Some i) ++ [n])) by (cbn [first place]; destruct (K (Some i)); reflexivity).
    split; [exact (forest_child K n i q K' F I E O)|]. cbn [mems dics top]. split; [|split].
    + apply (child_layer K n i q K' (mems s) _ F I E O LM); rewrite ?LX; cbn; try (ups; reflexivity).
      * intros l L. ups. rewrite MI in L. injection L as <-. cbn. rewrite <- HF. reflexivity.
      * intros y l [= <-] L. ups. rewrite MX in L. injection L as <-. reflexivity.
      * intros j Jn Ji Jx. ups. reflexivity.
    + apply (child_layer K n i q K' (dics s) _ F I E O LD); rewrite ?LX; cbn; try (ups; reflexivity).
      * intros l L. ups. rewrite DI in L. injection L as <-. cbn. rewrite <- HF. reflexivity.
      * intros y l [= <-] L. ups. rewrite DX in L. injection L as <-. reflexivity.
      * intros j Jn Ji Jx. ups. reflexivity.
    + intros j J. destruct (Z.eq_dec j n) as [->|Jn]; [exists (Some i); rewrite E; apply in_app_iff; right; left; reflexivity|].
      assert (X : mems s j <> None). { destruct (Z.eq_dec j i) as [->|Ji]; [rewrite MI; discriminate|]. destruct (Z.eq_dec j x) as [->|Jx]; [rewrite MX; discriminate|]. revert J. cbn. ups. auto. }
      apply LV in X as (p & X). exists p. destruct (peq p (Some i)) as [->|N]; [rewrite E; apply in_app_iff; auto|rewrite O by exact N; exact X].
  - pose proof (last_opt_none _ LX) as KE. cbn [bind]. rewrite (item_ok s1 i _ M1). cbn [bind].
    unfold set_first. erewrite change_ok; [|cbn; ups; exact MI|cbn; ups; exact DI]. cbn [bind].
    unfold set_last. erewrite change_ok; [|cbn; ups; reflexivity|cbn; ups; reflexivity]. cbn [bind mems dics top up prev next first last_]. eexists _, K'. split; [reflexivity|]. cbn [top]. split; [eapply s_child; eassumption|].
    assert (HF : match first (place K q a i b) with Some f => Some f | None => Some n end = hd_error (K (Some i) ++ [n])) by (cbn [first place]; destruct (K (Some i)); reflexivity).
    split; [exact (forest_child K n i q K' F I E O)|]. cbn [mems dics top]. split; [|split].
    + apply (child_layer K n i q K' (mems s) _ F I E O LM); rewrite ?LX; cbn; try (ups; reflexivity).
      * intros l L. ups. rewrite MI in L. injection L as <-. cbn. rewrite <- HF. reflexivity.
      * discriminate.
      * intros j Jn Ji Jx. ups. reflexivity.
    + apply (child_layer K n i q K' (dics s) _ F I E O LD); rewrite ?LX; cbn; try (ups; reflexivity).
      * intros l L. ups. rewrite DI in L. injection L as <-. cbn. rewrite <- HF. reflexivity.
      * discriminate.
      * intros j Jn Ji Jx. ups. reflexivity.
    + intros j J. destruct (Z.eq_dec j n) as [->|Jn]; [exists (Some i); rewrite E; apply in_app_iff; right; left; reflexivity|].
      assert (X : mems s j <> None). { destruct (Z.eq_dec j i) as [->|Ji]; [rewrite MI; discriminate|]. revert J. cbn. ups. auto. }
      apply LV in X as (p & X). exists p. destruct (peq p (Some i)) as [->|N]; [rewrite E; apply in_app_iff; auto|rewrite O by exact N; exact X].
Qed.
