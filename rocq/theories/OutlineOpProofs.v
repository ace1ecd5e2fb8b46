(** Outlines: CreateNext and Erase *)
From Verif Require Import Base ChainProofs OutlineModel OutlineSpec OutlineProofs.
Local Open Scope Z_scope.

(** ** CreateNext *)
Lemma forest_next K n i q a b K' : forest K n -> K q = a ++ i :: b -> K' q = a ++ i :: n :: b -> (forall p, p <> q -> K' p = K p) -> forest K' (n + 1).
Proof.
  intros (F1 & F2 & F3 & F4) P E O. assert (IN : forall p j, In j (K' p) -> In j (K p) \/ (p = q /\ j = n)).
  { intros p j J. destruct (peq p q) as [->|N]; [|rewrite O in J by exact N; auto]. rewrite E in J. rewrite P. apply in_app_iff in J as [J|[J|[J|J]]]; rewrite ?in_app_iff; cbn [In]; auto. }
  assert (IN' : forall p j, In j (K p) -> In j (K' p)).
  { intros p j J. destruct (peq p q) as [->|N]; [|rewrite O by exact N; exact J]. rewrite E. rewrite P in J. rewrite in_app_iff in *. cbn [In] in *. tauto. }
  split; [|split; [|split]].
  - intros p. destruct (peq p q) as [->|N]; [|rewrite O by exact N; apply F1]. rewrite E. change (a ++ i :: n :: b) with (a ++ [i] ++ n :: b). rewrite app_assoc. apply NoDup_mid; rewrite <- app_assoc; cbn [app]; rewrite <- P; [apply F1|]. intros X. apply F4 in X. lia.
  - intros p p' j A B. apply IN in A as [A|[Ap Aj]]; apply IN in B as [B|[Bp Bj]]; [eapply F2; eassumption|apply F4 in A; lia|apply F4 in B; lia|congruence].
  - intros p j A. apply IN in A as [A|[A Aj]]; [destruct (F3 p j A) as [L (r & R)]; split; [exact L|exists r; apply IN', R]|]. subst q j.
    assert (I : In i (K (Some p))) by (rewrite P; apply in_app_iff; right; left; reflexivity). pose proof (F4 _ _ I). apply F3 in I as [L (r & R)]. split; [lia|exists r; apply IN', R].
  - intros p j A. apply IN in A as [A|[_ Aj]]; [apply F4 in A|]; lia.
Qed.
(** The old place of an item *)
Lemma next_place (a b : list Z) i n a' j b' : NoDup (a ++ i :: n :: b) -> a ++ i :: n :: b = a' ++ j :: b' -> j <> n ->
  exists a0 b0, a ++ i :: b = a0 ++ j :: b0 /\ last_opt a' = (match hd_error b with Some y => if y =? j then Some n else last_opt a0 | None => last_opt a0 end) /\
    hd_error b' = (if j =? i then Some n else hd_error b0).
Proof.
  intros N E J. assert (I : In j (a ++ i :: n :: b)) by (rewrite E; apply in_app_iff; right; left; reflexivity). pose proof N as ND.
  apply in_app_iff in I as [I|[I|[I|I]]]; [| |congruence|].
  - apply in_split in I as (a1 & a2 & ->). rewrite <- app_assoc in *. cbn [app] in *. destruct (app_split _ _ _ _ _ N E) as [<- <-]. exists a1, (a2 ++ i :: b). split; [reflexivity|]. apply NoDup_remove_2 in ND.
    assert (JI : j <> i) by (intros ->; apply ND; rewrite !in_app_iff; cbn; auto 10). destruct (Z.eqb_spec j i); [congruence|]. split; [|destruct a2; reflexivity].
    destruct b as [|y b]; [reflexivity|]. cbn [hd_error]. destruct (Z.eqb_spec y j) as [->|]; [|reflexivity]. exfalso. apply ND. rewrite !in_app_iff. cbn. auto 10.
  - subst j. destruct (app_split _ _ _ _ _ N E) as [<- <-]. exists a, b. split; [reflexivity|]. rewrite Z.eqb_refl. split; [|reflexivity]. apply NoDup_remove_2 in ND. destruct b as [|y b]; [reflexivity|]. cbn [hd_error].
    destruct (Z.eqb_spec y i) as [->|]; [|reflexivity]. exfalso. apply ND. rewrite !in_app_iff. cbn. auto 10.
  - apply in_split in I as (b1 & b2 & ->). change (a ++ i :: n :: b1 ++ j :: b2) with (a ++ (i :: n :: b1) ++ j :: b2) in *. rewrite app_assoc in *. destruct (app_split _ _ _ _ _ N E) as [<- <-].
    exists (a ++ i :: b1), b2. split; [rewrite <- app_assoc; reflexivity|]. apply NoDup_remove_2 in ND. destruct (Z.eqb_spec j i) as [->|JI]; [exfalso; apply ND; rewrite !in_app_iff; cbn; auto 10|]. split; [|reflexivity].
    rewrite !last_opt_app_ne by discriminate. destruct b1 as [|y b1]; cbn [app hd_error].
    + rewrite Z.eqb_refl. reflexivity.
    + destruct (Z.eqb_spec y j) as [->|]; [exfalso; apply ND; rewrite !in_app_iff; cbn; auto 10|]. rewrite (last_opt_cons i (n :: y :: b1)), (last_opt_cons n (y :: b1)), (last_opt_cons i (y :: b1)) by discriminate. reflexivity.
Qed.
Lemma next_layer K n i q a b K' d d' : forest K n -> K q = a ++ i :: b -> K' q = a ++ i :: n :: b -> (forall p, p <> q -> K' p = K p) -> layer d K ->
  d' n = Some (mk_links q (Some i) (hd_error b) None None) ->
  (forall l, d i = Some l -> d' i = Some (mk_links (up l) (prev l) (Some n) (first l) (last_ l))) ->
  (forall y l, hd_error b = Some y -> d y = Some l -> d' y = Some (mk_links (up l) (Some n) (next l) (first l) (last_ l))) ->
  (forall p l, q = Some p -> b = [] -> d p = Some l -> d' p = Some (mk_links (up l) (prev l) (next l) (first l) (Some n))) ->
  (forall j, j <> n -> j <> i -> hd_error b <> Some j -> (q = Some j -> b <> []) -> d' j = d j) -> layer d' K'.
Proof.
  intros FO P E O L Dn Di Dy Dp Do p a' j b' P'. pose proof FO as (F1 & F2 & F3 & F4).
  pose proof (forest_next K n i q a b K' FO P E O) as (G1 & G2 & G3 & G4).
  assert (IQ : In i (K q)) by (rewrite P; apply in_app_iff; right; left; reflexivity). assert (IN : i <> n) by (apply F4 in IQ; lia).
  assert (NQ : q <> Some n). { intros ->. destruct (F3 n i IQ) as [X _]. apply F4 in IQ. lia. }
  assert (KN : K' (Some n) = []).
  { rewrite O by congruence. destruct (K (Some n)) as [|x t] eqn:X; [reflexivity|]. destruct (F3 n x) as [_ (r & R)]; [rewrite X; left; reflexivity|]. apply F4 in R. lia. }
  assert (QK : forall x, q = Some x -> x <> i /\ hd_error b <> Some x).
  { intros x ->. split; [apply F3 in IQ as [X _]; lia|]. intros X. destruct b as [|y b]; [discriminate|]. injection X as ->. assert (Y : In x (K (Some x))) by (rewrite P; apply in_app_iff; right; right; left; reflexivity). apply F3 in Y as [Y _]. lia. }
  destruct (Z.eq_dec j n) as [->|Jn].
  - assert (p = q) as ->. { destruct (peq p q) as [->|N]; [reflexivity|]. rewrite O in P' by exact N. assert (X : In n (K p)) by (rewrite P'; apply in_app_iff; right; left; reflexivity). apply F4 in X. lia. }
    pose proof (G1 q) as ND. rewrite E in P', ND. change (a ++ i :: n :: b) with (a ++ [i] ++ n :: b) in *. rewrite app_assoc in *. destruct (app_split _ _ _ _ _ ND P') as [<- <-]. rewrite Dn. unfold place. rewrite KN, last_opt_app. reflexivity.
  - assert (OLD : exists a0 b0, K p = a0 ++ j :: b0 /\ last_opt a' = (match hd_error b with Some y => if y =? j then Some n else last_opt a0 | None => last_opt a0 end) /\
      hd_error b' = (if j =? i then Some n else hd_error b0)).
    { destruct (peq p q) as [->|N].
      - rewrite P. apply next_place; [rewrite <- E; apply G1|rewrite <- E; exact P'|exact Jn].
      - rewrite O in P' by exact N. exists a', b'. split; [exact P'|]. assert (JP : In j (K p)) by (rewrite P'; apply in_app_iff; right; left; reflexivity). split.
        + destruct b as [|y b]; [reflexivity|]. cbn [hd_error]. destruct (Z.eqb_spec y j) as [->|]; [|reflexivity]. exfalso. apply N. apply (F2 p q j JP). rewrite P. apply in_app_iff. right. right. left. reflexivity.
        + destruct (Z.eqb_spec j i) as [->|]; [|reflexivity]. exfalso. apply N. eapply F2; eassumption. }
    destruct OLD as (a0 & b0 & PO & HA & HB). pose proof (L p a0 j b0 PO) as LJ.
    assert (FST : hd_error (K' (Some j)) = hd_error (K (Some j)) /\ (last_opt (K' (Some j)) = if peq q (Some j) then (match b with [] => Some n | _ => last_opt (K (Some j)) end) else last_opt (K (Some j)))).
    { destruct (peq q (Some j)) as [Q|N]; [|rewrite O by congruence; auto]. subst q. rewrite E, P. split; [destruct a; reflexivity|]. rewrite !last_opt_app_ne by discriminate. destruct b as [|y b]; [reflexivity|]. rewrite (last_opt_cons i (n :: y :: b)), (last_opt_cons n (y :: b)), (last_opt_cons i (y :: b)) by discriminate. reflexivity. }
    destruct FST as [FS LS]. unfold place. rewrite FS, LS, HA, HB.
    destruct (Z.eqb_spec j i) as [->|Ji]; [|destruct (hd_error b) as [y|] eqn:HY; [destruct (Z.eqb_spec y j) as [->|Yj]|]].
    + rewrite (Di _ LJ). unfold place. cbn [up prev next first last_]. destruct (peq q (Some i)) as [Q|_]; [destruct (QK i Q); congruence|].
      destruct (hd_error b) as [y|] eqn:HY; [|reflexivity]. destruct (Z.eqb_spec y i) as [->|]; [|reflexivity]. exfalso. specialize (F1 q). rewrite P in F1. apply NoDup_remove_2 in F1. apply F1. destruct b; [discriminate|]. injection HY as ->. apply in_app_iff. right. left. reflexivity.
    + rewrite (Dy j _ eq_refl LJ). unfold place. cbn [up prev next first last_]. destruct (peq q (Some j)) as [Q|_]; [destruct (QK j Q); congruence|]. reflexivity.
    + rewrite Do; [|assumption|assumption|congruence|intros _ ->; discriminate]. rewrite LJ. unfold place. destruct (peq q (Some j)) as [Q|_]; [|reflexivity]. destruct b; [discriminate|reflexivity].
    + destruct b; [|discriminate]. destruct (peq q (Some j)) as [Q|NQj].
      * rewrite (Dp j _ Q eq_refl LJ). reflexivity.
      * rewrite Do; [|assumption|assumption|congruence|congruence]. rewrite LJ. reflexivity.
Qed.
Lemma next_ok s K i q : matches s K -> In i (K q) -> exists s' K', create_next s i = Ok (top s, s') /\ step K (top s) (CNext i) K' (top s') /\ matches s' K'.
Proof.
  intros (F & LM & LD & LV) I. set (n := top s). destruct (in_place K q i I) as (a & b & P). pose proof (LM q a i b P) as MI. pose proof (LD q a i b P) as DI.
  pose proof F as (F1 & F2 & F3 & F4). assert (IN : i <> n) by (apply F4 in I; unfold n; lia).
  set (K' := kids_set K q (a ++ i :: n :: b)). assert (E : K' q = a ++ i :: n :: b) by apply kids_same. assert (O : forall p, p <> q -> K' p = K p) by (intros p; apply kids_other).
  assert (LIVE : forall (j : Z) (m : Z -> option links), (forall j, j <> n -> m j <> None -> mems s j <> None) -> m j <> None -> exists p, In j (K' p)).
  { intros j m H J. destruct (Z.eq_dec j n) as [->|Jn]; [exists q; rewrite E; apply in_app_iff; right; right; left; reflexivity|]. apply (H j Jn), LV in J as (p & X). exists p.
    destruct (peq p q) as [->|N]; [|rewrite O by exact N; exact X]. rewrite E. rewrite P in X. rewrite in_app_iff in *. cbn [In] in *. tauto. }
  unfold create_next. rewrite (item_ok s i _ MI). cbn [bind new_item]. fold n. set (s1 := mk_ost _ _ _). cbn [place up next].
  destruct b as [|y b]; cbn [hd_error].
  - cbn [bind]. unfold set_next, set_prev, set_last.
    erewrite change_ok; [|cbn; ups; exact MI|cbn; ups; exact DI]. cbn [bind]. erewrite change_ok; [|cbn; ups; reflexivity|cbn; ups; reflexivity]. cbn [bind up prev next first last_].
    erewrite item_ok; [|cbn; ups; reflexivity]. cbn [bind next].
    destruct q as [p|].
    + destruct (F3 p i I) as [PL (r & R)]. destruct (in_place K r p R) as (ar & br & PR). pose proof (LM r ar p br PR) as MP. pose proof (LD r ar p br PR) as DP. assert (Pn : p <> n) by (apply F4 in R; unfold n; lia). assert (Pi : p <> i) by lia.
      erewrite change_ok; [|cbn; ups; exact MP|cbn; ups; exact DP]. cbn [bind]. eexists _, K'. split; [reflexivity|]. cbn [top]. split; [eapply s_next; eassumption|]. split; [exact (forest_next K n i _ a [] K' F P E O)|]. cbn [mems dics].
      split; [|split].
      * apply (next_layer K n i _ a [] K' (mems s) _ F P E O LM); cbn; try (ups; reflexivity); try discriminate.
        -- intros l X. ups. rewrite MI in X. injection X as <-. reflexivity.
        -- intros p' l [= <-] _ X. ups. rewrite MP in X. injection X as <-. reflexivity.
        -- intros j Jn Ji _ Jp. assert (j <> p) by (intros ->; apply (Jp eq_refl); reflexivity). ups. reflexivity.
      * apply (next_layer K n i _ a [] K' (dics s) _ F P E O LD); cbn; try (ups; reflexivity); try discriminate.
        -- intros l X. ups. rewrite DI in X. injection X as <-. reflexivity.
        -- intros p' l [= <-] _ X. ups. rewrite DP in X. injection X as <-. reflexivity.
        -- intros j Jn Ji _ Jp. assert (j <> p) by (intros ->; apply (Jp eq_refl); reflexivity). ups. reflexivity.
      * intros j; apply LIVE; intros j' Jn. destruct (Z.eq_dec j' i) as [->|Ji]; [rewrite MI; discriminate|]. destruct (Z.eq_dec j' p) as [->|Jp]; [rewrite MP; discriminate|]. cbn. ups. auto.
    + cbn [bind]. eexists _, K'. split; [reflexivity|]. cbn [top]. split; [eapply s_next; eassumption|]. split; [exact (forest_next K n i _ a [] K' F P E O)|]. cbn [mems dics].
      split; [|split].
      * apply (next_layer K n i _ a [] K' (mems s) _ F P E O LM); cbn; try (ups; reflexivity); try discriminate.
        -- intros l X. ups. rewrite MI in X. injection X as <-. reflexivity.
        -- intros j Jn Ji _ Jp. ups. reflexivity.
      * apply (next_layer K n i _ a [] K' (dics s) _ F P E O LD); cbn; try (ups; reflexivity); try discriminate.
        -- intros l X. ups. rewrite DI in X. injection X as <-. reflexivity.
        -- intros j Jn Ji _ Jp. ups. reflexivity.
      * intros j; apply LIVE; intros j' Jn. destruct (Z.eq_dec j' i) as [->|Ji]; [rewrite MI; discriminate|]. cbn. ups. auto.
  - assert (PY : K q = (a ++ [i]) ++ y :: b) by (rewrite <- app_assoc; exact P). pose proof (LM _ _ _ _ PY) as MY. pose proof (LD _ _ _ _ PY) as DY.
    assert (YQ : In y (K q)) by (rewrite PY; apply in_app_iff; right; left; reflexivity). assert (Yn : y <> n) by (apply F4 in YQ; unfold n; lia).
    assert (Yi : y <> i). { intros ->. specialize (F1 q). rewrite P in F1. apply NoDup_remove_2 in F1. apply F1, in_app_iff. right. left. reflexivity. }
    unfold set_next, set_prev, set_last. erewrite change_ok; [|cbn; ups; exact MY|cbn; ups; exact DY]. cbn [bind]. erewrite change_ok; [|cbn; ups; reflexivity|cbn; ups; reflexivity]. cbn [bind up prev next first last_].
    erewrite change_ok; [|cbn; ups; exact MI|cbn; ups; exact DI]. cbn [bind]. erewrite change_ok; [|cbn; ups; reflexivity|cbn; ups; reflexivity]. cbn [bind up prev next first last_].
    erewrite item_ok; [|cbn; ups; reflexivity]. cbn [bind next].
    match goal with |- context [bind (match q with Some _ => Ok ?x | None => Ok ?x end)] => replace (match q with Some _ => Ok x | None => Ok x end) with (Ok x) by (destruct q; reflexivity) end.
    cbn [bind]. eexists _, K'. split; [reflexivity|]. cbn [top]. split; [eapply s_next; eassumption|]. split; [exact (forest_next K n i _ a (y :: b) K' F P E O)|]. cbn [mems dics].
    split; [|split].
    + apply (next_layer K n i _ a (y :: b) K' (mems s) _ F P E O LM); cbn; try (ups; reflexivity); try discriminate.
      * intros l X. ups. rewrite MI in X. injection X as <-. reflexivity.
      * intros y' l [= <-] X. ups. rewrite MY in X. injection X as <-. reflexivity.
      * intros j Jn Ji Jy _. assert (j <> y) by congruence. ups. reflexivity.
    + apply (next_layer K n i _ a (y :: b) K' (dics s) _ F P E O LD); cbn; try (ups; reflexivity); try discriminate.
      * intros l X. ups. rewrite DI in X. injection X as <-. reflexivity.
      * intros y' l [= <-] X. ups. rewrite DY in X. injection X as <-. reflexivity.
      * intros j Jn Ji Jy _. assert (j <> y) by congruence. ups. reflexivity.
    + intros j; apply LIVE; intros j' Jn. destruct (Z.eq_dec j' i) as [->|Ji]; [rewrite MI; discriminate|]. destruct (Z.eq_dec j' y) as [->|Jy]; [rewrite MY; discriminate|]. cbn. ups. auto.
Qed.

(** ** Erase of an item without children *)
Lemma remove_mid (a b : list Z) i : NoDup (a ++ i :: b) -> remove Z.eq_dec i (a ++ i :: b) = a ++ b.
Proof.
  intros N. apply NoDup_remove_2 in N. rewrite remove_app. cbn [remove]. destruct (Z.eq_dec i i); [|congruence]. rewrite in_app_iff in N. rewrite !notin_remove by tauto. reflexivity.
Qed.
Lemma under_leaf K i j : K (Some i) = [] -> under K i j -> j = i.
Proof. intros E U. induction U as [|p j U IH J]; [reflexivity|]. rewrite IH, E in J. destruct J. Qed.
Lemma forest_less K n K' : forest K n -> (forall p, NoDup (K' p)) -> (forall p j, In j (K' p) -> In j (K p)) ->
  (forall p j, In j (K' (Some p)) -> exists r, In p (K' r)) -> forest K' n.
Proof.
  intros (F1 & F2 & F3 & F4) ND IN UP. split; [exact ND|]. split; [|split].
  - intros p q j A B. eapply F2; eauto.
  - intros p j A. split; [apply (F3 p j), IN, A|apply (UP p j), A].
  - intros p j A. apply (F4 p), IN, A.
Qed.
Lemma erase_place (a b : list Z) i a' j b' : NoDup (a ++ i :: b) -> a ++ b = a' ++ j :: b' ->
  exists a0 b0, a ++ i :: b = a0 ++ j :: b0 /\ j <> i /\ last_opt a' = (match hd_error b with Some y => if y =? j then last_opt a else last_opt a0 | None => last_opt a0 end) /\
    hd_error b' = (match last_opt a with Some x => if x =? j then hd_error b else hd_error b0 | None => hd_error b0 end).
Proof.
  intros ND E. pose proof (NoDup_remove_1 _ _ _ ND) as N. pose proof (NoDup_remove_2 _ _ _ ND) as NI. assert (I : In j (a ++ b)) by (rewrite E; apply in_app_iff; right; left; reflexivity). assert (JI : j <> i) by (intros ->; exact (NI I)).
  apply in_app_iff in I as [I|I].
  - apply in_split in I as (a1 & a2 & ->). rewrite <- app_assoc in N, E. cbn [app] in N, E. destruct (app_split _ _ _ _ _ N E) as [<- <-]. exists a1, (a2 ++ i :: b). rewrite <- app_assoc. split; [reflexivity|]. split; [exact JI|]. apply NoDup_remove_2 in N. split.
    + destruct b as [|y b]; [reflexivity|]. cbn [hd_error]. destruct (Z.eqb_spec y j) as [->|]; [|reflexivity]. exfalso. apply N. rewrite !in_app_iff. cbn. auto 10.
    + rewrite last_opt_app_ne by discriminate. destruct a2 as [|z a2] using rev_ind.
      * change (last_opt [j]) with (Some j). cbv beta iota. rewrite Z.eqb_refl. reflexivity.
      * clear IHa2. rewrite app_comm_cons, last_opt_app. cbv beta iota. destruct (Z.eqb_spec z j) as [->|]; [exfalso; apply N; rewrite !in_app_iff; cbn; auto 10|]. destruct a2; reflexivity.
  - apply in_split in I as (b1 & b2 & ->). rewrite app_assoc in N, E. destruct (app_split _ _ _ _ _ N E) as [<- <-]. exists (a ++ i :: b1), b2. split; [rewrite <- app_assoc; reflexivity|]. split; [exact JI|]. apply NoDup_remove_2 in N. split.
    + rewrite (last_opt_app_ne a (i :: b1)) by discriminate. destruct b1 as [|y b1]; cbn [hd_error app].
      * rewrite Z.eqb_refl, app_nil_r. reflexivity.
      * destruct (Z.eqb_spec y j) as [->|]; [exfalso; apply N; rewrite !in_app_iff; cbn; auto 10|]. rewrite last_opt_app_ne by discriminate. rewrite (last_opt_cons i) by discriminate. reflexivity.
    + destruct (last_opt a) as [x|] eqn:X; [|reflexivity]. destruct (Z.eqb_spec x j) as [->|]; [|reflexivity]. apply last_opt_some in X as (t & ->). exfalso. apply N. rewrite !in_app_iff. cbn. auto 10.
Qed.
Lemma erase_layer K n i q a b K' d d' : forest K n -> K q = a ++ i :: b -> K (Some i) = [] -> K' q = a ++ b -> (forall p, p <> q -> K' p = K p) -> layer d K ->
  (forall x l, last_opt a = Some x -> d x = Some l -> d' x = Some (mk_links (up l) (prev l) (hd_error b) (first l) (last_ l))) ->
  (forall y l, hd_error b = Some y -> d y = Some l -> d' y = Some (mk_links (up l) (last_opt a) (next l) (first l) (last_ l))) ->
  (forall p l, q = Some p -> d p = Some l -> d' p = Some (mk_links (up l) (prev l) (next l) (hd_error (a ++ b)) (last_opt (a ++ b)))) ->
  (forall j, j <> i -> last_opt a <> Some j -> hd_error b <> Some j -> q <> Some j -> d' j = d j) -> layer d' K'.
Proof.
  intros (F1 & F2 & F3 & F4) P KI E O L Dx Dy Dp Do p a' j b' P'.
  assert (IQ : In i (K q)) by (rewrite P; apply in_app_iff; right; left; reflexivity).
  assert (XQ : forall x, last_opt a = Some x -> In x (K q)). { intros x X. apply last_opt_some in X as (t & ->). rewrite P, !in_app_iff. cbn. auto. }
  assert (YQ : forall y, hd_error b = Some y -> In y (K q)). { intros y Y. destruct b; [discriminate|]. injection Y as ->. rewrite P, in_app_iff. cbn. auto. }
  assert (OLD : exists a0 b0, K p = a0 ++ j :: b0 /\ j <> i /\ last_opt a' = (match hd_error b with Some y => if y =? j then last_opt a else last_opt a0 | None => last_opt a0 end) /\
    hd_error b' = (match last_opt a with Some x => if x =? j then hd_error b else hd_error b0 | None => hd_error b0 end)).
  { destruct (peq p q) as [->|N].
    - rewrite P. apply erase_place; [rewrite <- P; apply F1|rewrite <- E; exact P'].
    - rewrite O in P' by exact N. exists a', b'. split; [exact P'|]. assert (JP : In j (K p)) by (rewrite P'; apply in_app_iff; right; left; reflexivity).
      assert (JQ : In j (K q) -> False) by (intros X; apply N; eapply F2; eassumption). split; [intros ->; auto|]. split.
      + destruct (hd_error b) as [y|] eqn:Y; [|reflexivity]. destruct (Z.eqb_spec y j) as [->|]; [|reflexivity]. exfalso. apply JQ, YQ. reflexivity.
      + destruct (last_opt a) as [x|] eqn:X; [|reflexivity]. destruct (Z.eqb_spec x j) as [->|]; [|reflexivity]. exfalso. apply JQ, XQ. reflexivity. }
  destruct OLD as (a0 & b0 & PO & JI & HA & HB). pose proof (L p a0 j b0 PO) as LJ. unfold place. rewrite HA, HB.
  destruct (peq q (Some j)) as [Q|NQ].
  - rewrite (Dp j _ Q LJ). unfold place. cbn [up prev next first last_]. rewrite <- E, Q. subst q.
    assert (NJ : ~ In j (K (Some j))) by (intros X; apply F3 in X as [X _]; lia).
    destruct (hd_error b) as [y|]; [destruct (Z.eqb_spec y j) as [->|]; [exfalso; apply NJ, YQ; reflexivity|]|]; (destruct (last_opt a) as [x|]; [destruct (Z.eqb_spec x j) as [->|]; [exfalso; apply NJ, XQ; reflexivity|]|]); reflexivity.
  - rewrite O by congruence. destruct (last_opt a) as [x|] eqn:X; [destruct (Z.eqb_spec x j) as [->|XJ]|].
    + rewrite (Dx j _ eq_refl LJ). unfold place. cbn [up prev next first last_]. destruct (hd_error b) as [y|] eqn:Y; [|reflexivity]. destruct (Z.eqb_spec y j) as [->|]; [|reflexivity].
      exfalso. specialize (F1 q). rewrite P in F1. apply last_opt_some in X as (t & ->). destruct b; [discriminate|]. injection Y as ->. apply NoDup_remove_1 in F1. rewrite <- app_assoc in F1. apply NoDup_remove_2 in F1. apply F1, in_app_iff. right. left. reflexivity.
    + destruct (hd_error b) as [y|] eqn:Y; [destruct (Z.eqb_spec y j) as [->|]|].
      * rewrite (Dy j _ eq_refl LJ). reflexivity.
      * rewrite Do by congruence. rewrite LJ. reflexivity.
      * rewrite Do by congruence. rewrite LJ. reflexivity.
    + destruct (hd_error b) as [y|] eqn:Y; [destruct (Z.eqb_spec y j) as [->|]|].
      * rewrite (Dy j _ eq_refl LJ). reflexivity.
      * rewrite Do by congruence. rewrite LJ. reflexivity.
      * rewrite Do by congruence. rewrite LJ. reflexivity.
Qed.
Lemma same_ptr_refl x : same_ptr (Some x) (Some x) = true.
Proof. apply Z.eqb_refl. Qed.
Lemma erase_leaf s K i q : matches s K -> In i (K q) -> K (Some i) = [] ->
  exists s' K', (forall fuel, erase (S fuel) s i = Ok s') /\ step K (top s) (CErase i) K' (top s) /\ top s' = top s /\ matches s' K'.
Proof.
  intros (F & LM & LD & LV) I KI. destruct (in_place K q i I) as (a & b & P). pose proof (LM q a i b P) as MI. pose proof (LD q a i b P) as DI.
  pose proof F as (F1 & F2 & F3 & F4). pose proof (F1 q) as ND. rewrite P in ND.
  set (K' := kids_set K q (a ++ b)). assert (E : K' q = a ++ b) by apply kids_same. assert (O : forall p, p <> q -> K' p = K p) by (intros p; apply kids_other).
  assert (QI : q <> Some i) by (intros ->; rewrite KI in I; destruct I).
  assert (ST : step K (top s) (CErase i) K' (top s)).
  { eapply s_erase; [exact I| |].
    - intros p (j & -> & U). apply (under_leaf K i j KI) in U as ->. rewrite O by congruence. exact KI.
    - intros p G. destruct (peq p q) as [->|N]; [rewrite E, P; symmetry; apply remove_mid, ND|]. rewrite O by exact N. symmetry. apply notin_remove. intros X. apply N. eapply F2; eassumption. }
  assert (FO : forest K' (top s)).
  { apply (forest_less K); [exact F| | |].
    - intros p. destruct (peq p q) as [->|N]; [rewrite E; apply (NoDup_remove_1 _ _ _ ND)|rewrite O by exact N; apply F1].
    - intros p j. destruct (peq p q) as [->|N]; [rewrite E, P, !in_app_iff; cbn; tauto|rewrite O by exact N; auto].
    - intros p j J. assert (J' : In j (K (Some p))). { destruct (peq (Some p) q) as [Q|N]; [subst q; rewrite E in J; rewrite P; rewrite in_app_iff in *; cbn; tauto|rewrite O in J by exact N; exact J]. }
      assert (PI : p <> i) by (intros ->; rewrite KI in J'; destruct J'). destruct (F3 p j J') as [_ (r & R)]. exists r. destruct (peq r q) as [->|N]; [|rewrite O by exact N; exact R]. rewrite E. rewrite P in R. rewrite in_app_iff in *. cbn in R. destruct R as [R|[R|R]]; auto. congruence. }
  assert (LIVE : forall (m : Z -> option links), (forall j, m j <> None -> mems s j <> None) -> m i = None -> forall j, m j <> None -> exists p, In j (K' p)).
  { intros m H MN j J. pose proof J as J'. apply H, LV in J' as (p & X). exists p. assert (JI : j <> i) by congruence. destruct (peq p q) as [->|N]; [|rewrite O by exact N; exact X]. rewrite E. rewrite P in X. rewrite in_app_iff in *. cbn in X. destruct X as [X|[X|X]]; auto. congruence. }
  (* the neighbours *)
  set (sa := match last_opt a with Some x => change s x (fun l => mk_links (up l) (prev l) (hd_error b) (first l) (last_ l)) | None => Ok s end).
  assert (XI : forall x, last_opt a = Some x -> x <> i /\ q <> Some x /\ hd_error b <> Some x /\ exists t, mems s x = Some (place K q t x (i :: b)) /\ dics s x = Some (place K q t x (i :: b))).
  { intros x X. apply last_opt_some in X as (t & T). assert (PX : K q = t ++ x :: i :: b) by (rewrite P, T, <- app_assoc; reflexivity). rewrite T in ND. split; [|split; [|split]].
    - intros ->. apply NoDup_remove_2 in ND. apply ND. rewrite !in_app_iff. cbn. auto.
    - intros ->. assert (Y : In x (K (Some x))) by (rewrite PX; apply in_app_iff; right; left; reflexivity). apply F3 in Y as [Y _]. lia.
    - intros Y. rewrite <- app_assoc in ND. apply NoDup_remove_2 in ND. apply ND, in_app_iff. right. right. destruct b; [discriminate|]. injection Y as ->. left. reflexivity.
    - exists t. split; [apply LM, PX|apply LD, PX]. }
  assert (YI : forall y, hd_error b = Some y -> y <> i /\ q <> Some y /\ exists t, mems s y = Some (place K q (a ++ [i]) y t) /\ dics s y = Some (place K q (a ++ [i]) y t)).
  { intros y Y. destruct b as [|z b]; [discriminate|]. injection Y as ->. assert (PY : K q = (a ++ [i]) ++ y :: b) by (rewrite <- app_assoc; exact P). split; [|split].
    - intros ->. apply NoDup_remove_2 in ND. apply ND, in_app_iff. right. left. reflexivity.
    - intros ->. assert (Y : In y (K (Some y))) by (rewrite PY; apply in_app_iff; right; left; reflexivity). apply F3 in Y as [Y _]. lia.
    - exists b. split; [apply LM, PY|apply LD, PY]. }
  assert (PI : forall p, q = Some p -> p <> i /\ exists r t1 t2, mems s p = Some (place K r t1 p t2) /\ dics s p = Some (place K r t1 p t2)).
  { intros p ->. destruct (F3 p i I) as [PL (r & R)]. split; [lia|]. destruct (in_place K r p R) as (t1 & t2 & PR). exists r, t1, t2. split; [apply LM, PR|apply LD, PR]. }
  cut (exists s', (forall fuel, erase (S fuel) s i = Ok s') /\ top s' = top s /\ mems s' i = None /\ (forall j, mems s' j <> None -> mems s j <> None) /\
    forall d d', (d = mems s /\ d' = mems s') \/ (d = dics s /\ d' = dics s') ->
      (forall x l, last_opt a = Some x -> d x = Some l -> d' x = Some (mk_links (up l) (prev l) (hd_error b) (first l) (last_ l))) /\
      (forall y l, hd_error b = Some y -> d y = Some l -> d' y = Some (mk_links (up l) (last_opt a) (next l) (first l) (last_ l))) /\
      (forall p l, q = Some p -> d p = Some l -> d' p = Some (mk_links (up l) (prev l) (next l) (hd_error (a ++ b)) (last_opt (a ++ b)))) /\
      (forall j, j <> i -> last_opt a <> Some j -> hd_error b <> Some j -> q <> Some j -> d' j = d j)).
  { intros (s' & S1 & S2 & S3 & S4 & S5). exists s', K'. split; [exact S1|]. split; [exact ST|]. split; [exact S2|]. split; [rewrite S2; exact FO|]. split; [|split].
    - destruct (S5 (mems s) (mems s')) as (H1 & H2 & H3 & H4); [auto|]. exact (erase_layer K (top s) i q a b K' (mems s) _ F P KI E O LM H1 H2 H3 H4).
    - destruct (S5 (dics s) (dics s')) as (H1 & H2 & H3 & H4); [auto|]. exact (erase_layer K (top s) i q a b K' (dics s) _ F P KI E O LD H1 H2 H3 H4).
    - apply LIVE; [exact S4|exact S3]. }
  clear LIVE FO ST sa. cbn [erase]. rewrite (item_ok s i _ MI). cbn [bind place first]. rewrite KI. cbn [hd_error prev next up place]. unfold set_prev, set_next, set_first, set_last.
  destruct (last_opt a) as [x|] eqn:X; destruct (hd_error b) as [y|] eqn:Y; cbv beta iota.
  - destruct (XI x eq_refl) as (Xi & Xq & Xy & t & MX & DX). destruct (YI y eq_refl) as (Yi & Yq & t' & MY & DY). assert (y <> x) by congruence.
    erewrite change_ok; [|exact MX|exact DX]. cbn [bind]. erewrite change_ok; [|cbn; ups; exact MY|cbn; ups; exact DY]. cbn [bind].
    eexists. split; [intros _; reflexivity|]. cbn [top mems dics]. split; [reflexivity|]. split; [ups; reflexivity|]. split.
    { intros j. destruct (Z.eq_dec j i) as [->|]; [rewrite MI; discriminate|]. destruct (Z.eq_dec j x) as [->|]; [rewrite MX; discriminate|]. destruct (Z.eq_dec j y) as [->|]; [rewrite MY; discriminate|]. ups. auto. }
    assert (HF : forall p l d, q = Some p -> layer d K -> d p = Some l -> Some l = Some (mk_links (up l) (prev l) (next l) (hd_error (a ++ b)) (last_opt (a ++ b)))).
    { intros p l d Q LL D. destruct (F3 p i) as [_ (r & R)]; [subst q; exact I|]. destruct (in_place K r p R) as (t1 & t2 & PR). rewrite (LL _ _ _ _ PR) in D. injection D as <-. unfold place. cbn [up prev next]. rewrite <- Q, P. f_equal. f_equal.
      - destruct a; [discriminate|reflexivity].
      - assert (b <> []) by (intros ->; discriminate). rewrite !last_opt_app_ne by (assumption || discriminate). rewrite last_opt_cons by assumption. reflexivity. }
    intros d d' [[-> ->]|[-> ->]].
    + split; [intros ? l [= <-] D; ups; rewrite MX in D; injection D as <-; reflexivity|]. split; [intros ? l [= <-] D; ups; rewrite MY in D; injection D as <-; reflexivity|].
      split; [|intros j A B C _; ups; reflexivity]. intros p l Q D. destruct (PI p Q) as [Pi _]. ups. rewrite D. exact (HF p l _ Q LM D).
    + split; [intros ? l [= <-] D; ups; rewrite DX in D; injection D as <-; reflexivity|]. split; [intros ? l [= <-] D; ups; rewrite DY in D; injection D as <-; reflexivity|].
      split; [|intros j A B C _; ups; reflexivity]. intros p l Q D. ups. rewrite D. exact (HF p l _ Q LD D).
  - destruct (XI x eq_refl) as (Xi & Xq & Xy & t & MX & DX). assert (b = []) as -> by (destruct b; [reflexivity|discriminate]). rewrite app_nil_r in *.
    erewrite change_ok; [|exact MX|exact DX]. cbn [bind]. destruct q as [p|].
    + destruct (PI p eq_refl) as (Pi & r & t1 & t2 & MP & DP). assert (p <> x) by congruence. erewrite item_ok; [|cbn; ups; exact MP]. cbn [bind place last_]. rewrite P, last_opt_app, same_ptr_refl.
      erewrite change_ok; [|cbn; ups; exact MP|cbn; ups; exact DP]. cbn [bind].
      eexists. split; [intros _; reflexivity|]. cbn [top mems dics]. split; [reflexivity|]. split; [ups; reflexivity|]. split.
      { intros j. destruct (Z.eq_dec j i) as [->|]; [rewrite MI; discriminate|]. destruct (Z.eq_dec j x) as [->|]; [rewrite MX; discriminate|]. destruct (Z.eq_dec j p) as [->|]; [rewrite MP; discriminate|]. ups. auto. }
      assert (HA : hd_error (K (Some p)) = hd_error a) by (rewrite P; destruct a; [discriminate|reflexivity]).
      intros d d' [[-> ->]|[-> ->]].
      * split; [intros ? l [= <-] D; ups; rewrite MX in D; injection D as <-; reflexivity|]. split; [discriminate|].
        split; [|intros j A B C Q; ups; reflexivity]. intros ? l [= <-] D. ups. rewrite MP in D. injection D as <-. cbn [place up prev next first last_]. rewrite HA, X. reflexivity.
      * split; [intros ? l [= <-] D; ups; rewrite DX in D; injection D as <-; reflexivity|]. split; [discriminate|].
        split; [|intros j A B C Q; ups; reflexivity]. intros ? l [= <-] D. ups. rewrite DP in D. injection D as <-. cbn [place up prev next first last_]. rewrite HA, X. reflexivity.
    + cbn [bind]. eexists. split; [intros _; reflexivity|]. cbn [top mems dics]. split; [reflexivity|]. split; [ups; reflexivity|]. split.
      { intros j. destruct (Z.eq_dec j i) as [->|]; [rewrite MI; discriminate|]. destruct (Z.eq_dec j x) as [->|]; [rewrite MX; discriminate|]. ups. auto. }
      intros d d' [[-> ->]|[-> ->]].
      * split; [intros ? l [= <-] D; ups; rewrite MX in D; injection D as <-; reflexivity|]. split; [discriminate|]. split; [discriminate|intros j A B C Q; ups; reflexivity].
      * split; [intros ? l [= <-] D; ups; rewrite DX in D; injection D as <-; reflexivity|]. split; [discriminate|]. split; [discriminate|intros j A B C Q; ups; reflexivity].
  - apply last_opt_none in X. subst a. destruct (YI y eq_refl) as (Yi & Yq & t' & MY & DY). cbn [app] in *. cbn [bind].
    erewrite change_ok; [|exact MY|exact DY]. cbn [bind]. assert (BN : b <> []) by (intros ->; discriminate). destruct q as [p|].
    + destruct (PI p eq_refl) as (Pi & r & t1 & t2 & MP & DP). assert (p <> y) by congruence. erewrite item_ok; [|cbn; ups; exact MP]. cbn [bind place first]. rewrite P. cbn [hd_error]. rewrite same_ptr_refl.
      erewrite change_ok; [|cbn; ups; exact MP|cbn; ups; exact DP]. cbn [bind].
      eexists. split; [intros _; reflexivity|]. cbn [top mems dics]. split; [reflexivity|]. split; [ups; reflexivity|]. split.
      { intros j. destruct (Z.eq_dec j i) as [->|]; [rewrite MI; discriminate|]. destruct (Z.eq_dec j y) as [->|]; [rewrite MY; discriminate|]. destruct (Z.eq_dec j p) as [->|]; [rewrite MP; discriminate|]. ups. auto. }
      assert (HA : last_opt (K (Some p)) = last_opt b) by (rewrite P; apply last_opt_cons, BN).
      intros d d' [[-> ->]|[-> ->]].
      * split; [discriminate|]. split; [intros ? l [= <-] D; ups; rewrite MY in D; injection D as <-; reflexivity|].
        split; [|intros j A B C Q; ups; reflexivity]. intros ? l [= <-] D. ups. rewrite MP in D. injection D as <-. cbn [place up prev next first last_]. rewrite HA, Y. reflexivity.
      * split; [discriminate|]. split; [intros ? l [= <-] D; ups; rewrite DY in D; injection D as <-; reflexivity|].
        split; [|intros j A B C Q; ups; reflexivity]. intros ? l [= <-] D. ups. rewrite DP in D. injection D as <-. cbn [place up prev next first last_]. rewrite HA, Y. reflexivity.
    + cbn [bind]. eexists. split; [intros _; reflexivity|]. cbn [top mems dics]. split; [reflexivity|]. split; [ups; reflexivity|]. split.
      { intros j. destruct (Z.eq_dec j i) as [->|]; [rewrite MI; discriminate|]. destruct (Z.eq_dec j y) as [->|]; [rewrite MY; discriminate|]. ups. auto. }
      intros d d' [[-> ->]|[-> ->]].
      * split; [discriminate|]. split; [intros ? l [= <-] D; ups; rewrite MY in D; injection D as <-; reflexivity|]. split; [discriminate|intros j A B C Q; ups; reflexivity].
      * split; [discriminate|]. split; [intros ? l [= <-] D; ups; rewrite DY in D; injection D as <-; reflexivity|]. split; [discriminate|intros j A B C Q; ups; reflexivity].
  - apply last_opt_none in X. subst a. assert (b = []) as -> by (destruct b; [reflexivity|discriminate]). cbn [app] in *. cbn [bind]. destruct q as [p|].
    + destruct (PI p eq_refl) as (Pi & r & t1 & t2 & MP & DP). rewrite (item_ok s p _ MP). cbn [bind place first]. rewrite P. cbn [hd_error]. rewrite same_ptr_refl. erewrite change_ok; [|exact MP|exact DP]. cbn [bind].
      erewrite item_ok; [|cbn; ups; reflexivity]. cbn [bind place last_]. rewrite P. change (last_opt [i]) with (Some i). rewrite same_ptr_refl. erewrite change_ok; [|cbn; ups; reflexivity|cbn; ups; reflexivity]. cbn [bind place up prev next first last_].
      eexists. split; [intros _; reflexivity|]. cbn [top mems dics]. split; [reflexivity|]. split; [ups; reflexivity|]. split.
      { intros j. destruct (Z.eq_dec j i) as [->|]; [rewrite MI; discriminate|]. destruct (Z.eq_dec j p) as [->|]; [rewrite MP; discriminate|]. ups. auto. }
      intros d d' [[-> ->]|[-> ->]].
      * split; [discriminate|]. split; [discriminate|]. split; [|intros j A B C Q; ups; reflexivity]. intros ? l [= <-] D. ups. rewrite MP in D. injection D as <-. reflexivity.
      * split; [discriminate|]. split; [discriminate|]. split; [|intros j A B C Q; ups; reflexivity]. intros ? l [= <-] D. ups. rewrite DP in D. injection D as <-. reflexivity.
    + cbn [bind]. eexists. split; [intros _; reflexivity|]. cbn [top mems dics]. split; [reflexivity|]. split; [ups; reflexivity|]. split.
      { intros j. destruct (Z.eq_dec j i) as [->|]; [rewrite MI; discriminate|]. ups. auto. }
      intros d d' [[-> ->]|[-> ->]]; (split; [discriminate|]; split; [discriminate|]; split; [discriminate|intros j A B C Q; ups; reflexivity]).
Qed.
