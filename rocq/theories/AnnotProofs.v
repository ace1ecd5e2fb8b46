(** Lemmas about the model of annotations and file specifications. *)
From Coq Require Import String QArith Lqa.
From Verif Require Import Base ChainProofs TokModel DictProofs OwnModel ListModel PageModel PageProofs RectModel LinkSpec LinkModel LinkProofs AnnotSpec AnnotModel.
Local Open Scope Z_scope.

(** ** Appearances: where the dictionary of appearances is *)
Definition stage (h : heap) (r : ref) (d : list (list Z * obj)) (l : loc) (ad : list (list Z * obj)) : Prop :=
  h r = Some (ODict d) /\
  (l = LinkModel.In (At r) (bs "AP") /\ dict_get (bs "AP") d = Some (ODict ad) \/
   exists q, l = At q /\ q <> r /\ dict_get (bs "AP") d = Some (to_ref q) /\ h q = Some (ODict ad)).
Lemma stage_read h r d l ad : stage h r d l ad -> read h l = Some (ODict ad).
Proof. intros (R & [(-> & G)|(q & -> & _ & _ & Q)]); [|exact Q]. cbn [read]. rewrite R. exact G. Qed.
Lemma stage_entry h r d l ad : stage h r d l ad -> entry_is h d (bs "AP") (ODict ad).
Proof.
  intros (R & [(-> & G)|(q & -> & _ & G & Q)]).
  - exists (ODict ad). split; [exact G|]. constructor. discriminate.
  - exists (to_ref q). split; [exact G|]. constructor. rewrite <- surjective_pairing. exact Q.
Qed.
Lemma only_refl ks d : only ks d d. Proof. intros k _. reflexivity. Qed.
Lemma only_trans ks a b c : only ks a b -> only ks b c -> only ks a c.
Proof. intros A B k N. rewrite B, A by exact N. reflexivity. Qed.
Lemma only_add ks k v d : List.In k ks -> only ks d (add_key k v d).
Proof. intros K j N. apply get_add_other. destruct (beq j k) eqn:B; [|reflexivity]. apply beq_eq in B. subst. contradiction. Qed.
Lemma only_more ks ks' a b : (forall k, List.In k ks -> List.In k ks') -> only ks a b -> only ks' a b.
Proof. intros S A k N. apply A. intro K. apply N, S, K. Qed.
Lemma stage_write h r d l ad ad' : stage h r d l ad -> exists d', stage (write h l (ODict ad')) r d' l ad' /\ only [bs "AP"] d d' /\
  forall q, q <> r -> l <> At q -> write h l (ODict ad') q = h q.
Proof.
  intros (R & [(-> & G)|(q & -> & N & G & Q)]).
  - cbn [write read]. rewrite R. exists (add_key (bs "AP") (ODict ad') d). split; [|split].
    + split; [apply set_same|]. left. split; [reflexivity|]. apply get_add_same.
    + apply only_add. left. reflexivity.
    + intros q N _. apply set_other, N.
  - cbn [write]. exists d. split; [|split; [apply only_refl|]].
    + split; [rewrite set_other by congruence; exact R|]. right. exists q. split; [reflexivity|]. split; [exact N|]. split; [exact G|apply set_same].
    + intros p _ L. apply set_other. congruence.
Qed.
(** The appearances in terms of the dictionary *)
Definition app_in (h : heap) (ad : list (list Z * obj)) (k st : list Z) (x : ref) : Prop :=
  st = [] /\ dict_get k ad = Some (to_ref x) \/
  st <> [] /\ exists sd, entry_is h ad k (ODict sd) /\ dict_get st sd = Some (to_ref x).
Lemma entry_fun h d k a b : entry_is h d k a -> entry_is h d k b -> a = b.
Proof.
  intros (e & G & V) (e' & G' & V'). rewrite G in G'. injection G' as <-.
  inversion V; subst; inversion V'; subst; auto; try congruence; exfalso; eauto.
Qed.
Lemma app_stage h r d l ad k st x : stage h r d l ad -> (appearance h r k st x <-> app_in h ad k st x).
Proof.
  intro Sg. split.
  - intros (d' & ad' & R & E & A). destruct Sg as (R' & Sg'). assert (d' = d) by congruence. subst d'.
    assert (X : ODict ad' = ODict ad) by (eapply entry_fun; [exact E|apply (stage_entry h r d l ad); split; assumption]).
    injection X as ->. exact A.
  - intro A. exists d, ad. split; [apply Sg|]. split; [eapply stage_entry, Sg|exact A].
Qed.
(** The inner dictionaries are neither where the outer ones are, nor shared *)
Definition apart (r : ref) (l : loc) (ad : list (list Z * obj)) : Prop :=
  (forall b q, dict_get (ap_name b) ad = Some (to_ref q) -> q <> r /\ l <> At q) /\
  (forall b c q, b <> c -> dict_get (ap_name b) ad = Some (to_ref q) -> dict_get (ap_name c) ad <> Some (to_ref q)).
Lemma ap_name_inj a b : beq (ap_name a) (ap_name b) = true -> a = b.
Proof. destruct a, b; intro E; try reflexivity; discriminate E. Qed.
Lemma ap_name_other a b : a <> b -> beq (ap_name a) (ap_name b) = false.
Proof. intro N. destruct (beq (ap_name a) (ap_name b)) eqn:B; [|reflexivity]. apply ap_name_inj in B. contradiction. Qed.
Lemma to_ref_eq n g : ORef n g = to_ref (n, g). Proof. reflexivity. Qed.
(** Entries stay while the objects they refer to do *)
Lemma entry_moves h h' ad ad' k v : dict_get k ad' = dict_get k ad -> (forall q, dict_get k ad = Some (to_ref q) -> h' q = h q) -> entry_is h ad k v -> entry_is h' ad' k v.
Proof.
  intros G F (e & E & V). exists e. split; [congruence|]. destruct V as [o N|n g o Q]; [constructor; exact N|].
  constructor. rewrite F; [exact Q|exact E].
Qed.
Lemma app_moves h h' ad ad' k st x : dict_get k ad' = dict_get k ad -> (forall q, dict_get k ad = Some (to_ref q) -> h' q = h q) -> app_in h ad k st x -> app_in h' ad' k st x.
Proof.
  intros G F [(S0 & E)|(S0 & sd & E & X)]; [left; split; [exact S0|congruence]|]. right. split; [exact S0|]. exists sd. split; [|exact X].
  eapply entry_moves; eassumption.
Qed.
Lemma find_dict h l k d0 : read h l = Some (ODict d0) ->
  (exists m ad, need_dict h l k = (h, m) /\
     (m = LinkModel.In l k /\ dict_get k d0 = Some (ODict ad) \/ exists q, m = At q /\ dict_get k d0 = Some (to_ref q) /\ h q = Some (ODict ad))) \/
  (need_dict h l k = (write h l (ODict (add_key k (ODict []) d0)), LinkModel.In l k) /\ forall ad, ~ entry_is h d0 k (ODict ad)).
Proof.
  intro R. unfold need_dict, find_loc. rewrite (read_in _ _ k _ R).
  assert (W : forall v, write h (LinkModel.In l k) v = write h l (ODict (add_key k v d0))) by (intro v; cbn [write]; rewrite R; reflexivity).
  assert (NE : forall o, dict_get k d0 = o -> (forall n g, o <> Some (ORef n g)) -> (forall ad, o <> Some (ODict ad)) -> forall ad, ~ entry_is h d0 k (ODict ad)).
  { intros o E N1 N2 ad (e & G & V). inversion V; subst; [apply (N2 ad); congruence|eapply N1; exact G]. }
  destruct (dict_get k d0) as [o|] eqn:G.
  2:{ right. rewrite W. split; [reflexivity|]. eapply NE; [reflexivity|discriminate|discriminate]. }
  destruct o as [| | | | | |n g| |ad].
  1-6,8: right; cbn [read]; rewrite R; unfold get_key; rewrite G, W; (split; [reflexivity|]); eapply NE; [reflexivity|discriminate|discriminate].
  - destruct (h (n, g)) as [v|] eqn:H.
    + assert (NV : (exists ad, v = ODict ad) \/ forall ad, v <> ODict ad) by (destruct v; try (right; discriminate); left; eexists; reflexivity).
      destruct NV as [(ad & ->)|NV].
      * left. exists (At (n, g)), ad. cbn [read]. rewrite H. split; [reflexivity|]. right. exists (n, g). auto.
      * right. cbn [read]. rewrite H. split.
        -- destruct v; try (rewrite W; reflexivity). exfalso. eapply NV. reflexivity.
        -- intros ad (e & G' & V). rewrite G in G'. injection G' as <-. inversion V; subst. eapply NV. rewrite H in H3. injection H3 as <-. reflexivity.
    + right. rewrite W. split; [reflexivity|]. intros ad (e & G' & V). rewrite G in G'. injection G' as <-. inversion V; subst; congruence.
  - left. exists (LinkModel.In l k), ad. cbn [read]. rewrite R. unfold get_key. rewrite G. split; [reflexivity|]. left. auto.
Qed.
(** What holds after a step that leaves the other appearances *)
Definition keeps (h : heap) (ad : list (list Z * obj)) (a : ap) (st : list Z) (h' : heap) (ad' : list (list Z * obj)) : Prop :=
  forall b st' y, b <> a \/ st <> [] /\ st' <> [] /\ st' <> st -> app_in h ad (ap_name b) st' y -> app_in h' ad' (ap_name b) st' y.
Lemma set_plain h r d l ad x a : stage h r d l ad -> apart r l ad ->
  exists d', stage (write h (LinkModel.In l (ap_name a)) (to_ref x)) r d' l (add_key (ap_name a) (to_ref x) ad) /\ only [bs "AP"] d d' /\
    (forall q, q <> r -> l <> At q -> write h (LinkModel.In l (ap_name a)) (to_ref x) q = h q) /\
    app_in (write h (LinkModel.In l (ap_name a)) (to_ref x)) (add_key (ap_name a) (to_ref x) ad) (ap_name a) [] x /\
    keeps h ad a [] (write h (LinkModel.In l (ap_name a)) (to_ref x)) (add_key (ap_name a) (to_ref x) ad).
Proof.
  intros Sg (A1 & A2). cbn [write]. rewrite (stage_read _ _ _ _ _ Sg).
  destruct (stage_write _ _ _ _ _ (add_key (ap_name a) (to_ref x) ad) Sg) as (d' & Sg' & O & F). exists d'.
  split; [exact Sg'|]. split; [exact O|]. split; [exact F|]. split.
  - left. split; [reflexivity|]. apply get_add_same.
  - intros b st' y [N|(N & _)] P; [|congruence]. eapply app_moves; [| |exact P].
    + apply get_add_other, ap_name_other, N.
    + intros q Q. destruct (A1 _ _ Q). apply F; assumption.
Qed.
(** The dictionary of states in place *)
Lemma set_state_in h r d l ad x a st sd : stage h r d l ad -> apart r l ad -> st <> [] -> dict_get (ap_name a) ad = Some (ODict sd) ->
  let h' := write h (LinkModel.In (LinkModel.In l (ap_name a)) st) (to_ref x) in let ad' := add_key (ap_name a) (ODict (add_key st (to_ref x) sd)) ad in
  exists d', stage h' r d' l ad' /\ only [bs "AP"] d d' /\ (forall q, q <> r -> l <> At q -> h' q = h q) /\
    app_in h' ad' (ap_name a) st x /\ keeps h ad a st h' ad'.
Proof.
  intros Sg (A1 & A2) NS G h' ad'. pose proof (stage_read _ _ _ _ _ Sg) as R.
  assert (H' : h' = write h l (ODict ad')).
  { unfold h'. cbn [write read]. rewrite R. unfold get_key. rewrite G. reflexivity. }
  rewrite H'. destruct (stage_write _ _ _ _ _ ad' Sg) as (d' & Sg' & O & F). exists d'.
  split; [exact Sg'|]. split; [exact O|]. split; [exact F|].
  assert (EN : forall h0, entry_is h0 ad' (ap_name a) (ODict (add_key st (to_ref x) sd))).
  { intro h0. eexists. split; [apply get_add_same|]. constructor. discriminate. }
  split.
  - right. split; [exact NS|]. eexists. split; [apply EN|]. apply get_add_same.
  - intros b st' y N P. assert (D : b = a \/ b <> a) by (destruct a, b; (left; reflexivity) || (right; discriminate)). destruct D as [->|D].
    + destruct N as [N|(_ & N1 & N2)]; [congruence|]. destruct P as [(E & _)|(_ & sd' & E & X)]; [contradiction|].
      right. split; [exact N1|]. eexists. split; [apply EN|].
      assert (ODict sd' = ODict sd) as X1 by (eapply entry_fun; [exact E|]; eexists; split; [exact G|constructor; discriminate]). injection X1 as ->.
      unfold add_key. rewrite get_add_other; [exact X|]. destruct (beq st' st) eqn:B; [|reflexivity]. apply beq_eq in B. contradiction.
    + eapply app_moves; [| |exact P].
      * apply get_add_other, ap_name_other, D.
      * intros q Q. destruct (A1 _ _ Q). apply F; assumption.
Qed.
(** The dictionary of states is an indirect object *)
Lemma set_state_at h r d l ad x a st sd q : stage h r d l ad -> apart r l ad -> st <> [] -> dict_get (ap_name a) ad = Some (to_ref q) -> h q = Some (ODict sd) ->
  let h' := write h (LinkModel.In (At q) st) (to_ref x) in
  stage h' r d l ad /\ (forall p, p <> q -> h' p = h p) /\ app_in h' ad (ap_name a) st x /\ keeps h ad a st h' ad.
Proof.
  intros Sg (A1 & A2) NS G Q h'. destruct (A1 _ _ G) as (N1 & N2).
  assert (H' : h' = PageModel.set q (Some (ODict (add_key st (to_ref x) sd))) h).
  { unfold h'. cbn [write read]. rewrite Q. reflexivity. }
  rewrite H'. assert (F : forall p, p <> q -> PageModel.set q (Some (ODict (add_key st (to_ref x) sd))) h p = h p) by (intros p N; apply set_other, N).
  assert (EN : entry_is (PageModel.set q (Some (ODict (add_key st (to_ref x) sd))) h) ad (ap_name a) (ODict (add_key st (to_ref x) sd))).
  { eexists. split; [exact G|]. constructor. rewrite <- surjective_pairing. apply set_same. }
  split; [|split; [exact F|split]].
  - destruct Sg as (R & Sg). split; [rewrite F by congruence; exact R|]. destruct Sg as [(E & G1)|(p & E & NP & G1 & P)]; [left; auto|].
    right. exists p. split; [exact E|]. split; [exact NP|]. split; [exact G1|]. rewrite F; [exact P|]. intro; subst. apply N2. reflexivity.
  - right. split; [exact NS|]. eexists. split; [exact EN|]. apply get_add_same.
  - intros b st' y N P. assert (D : b = a \/ b <> a) by (destruct a, b; (left; reflexivity) || (right; discriminate)). destruct D as [->|D].
    + destruct N as [N|(_ & N3 & N4)]; [congruence|]. destruct P as [(E & _)|(_ & sd' & E & X)]; [contradiction|].
      right. split; [exact N3|]. eexists. split; [exact EN|].
      assert (ODict sd' = ODict sd) as X1 by (eapply entry_fun; [exact E|]; eexists; split; [exact G|constructor; rewrite <- surjective_pairing; exact Q]). injection X1 as ->.
      unfold add_key. rewrite get_add_other; [exact X|]. destruct (beq st' st) eqn:B; [|reflexivity]. apply beq_eq in B. contradiction.
    + eapply app_moves; [reflexivity| |exact P]. intros p PP. apply F. intro; subst p. apply (A2 a b q); auto.
Qed.
(** The state of the annotation *)
Lemma stage_as h r d l ad v : stage h r d l ad -> stage (PageModel.set r (Some (ODict (add_key (bs "AS") v d))) h) r (add_key (bs "AS") v d) l ad.
Proof.
  intros (R & Sg). split; [apply set_same|]. destruct Sg as [(E & G)|(p & E & NP & G & P)].
  - left. split; [exact E|]. unfold add_key. rewrite get_add_other by reflexivity. exact G.
  - right. exists p. split; [exact E|]. split; [exact NP|]. split; [unfold add_key; rewrite get_add_other by reflexivity; exact G|].
    rewrite set_other by exact NP. exact P.
Qed.
Lemma app_frame h h' r l ad k st x b : k = ap_name b -> apart r l ad -> (forall q, q <> r -> h' q = h q) -> app_in h ad k st x -> app_in h' ad k st x.
Proof.
  intros -> (A1 & _) F P. eapply app_moves; [reflexivity| |exact P]. intros q Q. apply F. apply (A1 _ _ Q).
Qed.
Lemma nodup_app_disj {A} (l l' : list A) : NoDup (l ++ l') -> forall x, List.In x l -> ~ List.In x l'.
Proof.
  induction l as [|y l IH]; intros N x I J; [destruct I|]. cbn [app] in N. inversion N; subst. destruct I as [->|I].
  - apply H1. apply in_or_app. right. exact J.
  - eapply IH; eassumption.
Qed.
Lemma nodup_app_r {A} (l l' : list A) : NoDup (l ++ l') -> NoDup l'.
Proof. induction l as [|y l IH]; intro N; [exact N|]. inversion N; subst. auto. Qed.
Lemma ref_in_to q : ref_in (Some (to_ref q)) = [q]. Proof. destruct q. reflexivity. Qed.
Lemma in_three ad b q : dict_get (ap_name b) ad = Some (to_ref q) ->
  List.In q (ref_in (dict_get (bs "N") ad) ++ ref_in (dict_get (bs "R") ad) ++ ref_in (dict_get (bs "D") ad)).
Proof.
  intro G. destruct b; cbn [ap_name] in G; rewrite G, ref_in_to; rewrite ?in_app_iff; cbn [List.In]; tauto.
Qed.
Lemma three_apart ad b c q : NoDup (ref_in (dict_get (bs "N") ad) ++ ref_in (dict_get (bs "R") ad) ++ ref_in (dict_get (bs "D") ad)) ->
  b <> c -> dict_get (ap_name b) ad = Some (to_ref q) -> dict_get (ap_name c) ad <> Some (to_ref q).
Proof.
  intros N D G G'. pose proof (nodup_app_disj _ _ N q) as N1. apply nodup_app_r in N. pose proof (nodup_app_disj _ _ N q) as N2.
  rewrite in_app_iff in N1.
  destruct b, c; try (apply D; reflexivity); cbn [ap_name] in G, G'; rewrite G, G', ref_in_to in *; cbn [List.In] in *; tauto.
Qed.
Lemma prep h r d : h r = Some (ODict d) -> NoDup (kept_in h r d) -> exists h1 d1 l ad, need_dict h (At r) (bs "AP") = (h1, l) /\
  stage h1 r d1 l ad /\ apart r l ad /\ only [bs "AP"] d d1 /\ (forall q, q <> r -> h1 q = h q) /\
  (forall k st y, appearance h r k st y -> app_in h1 ad k st y) /\
  (forall q, l = At q -> List.In q (kept_in h r d)) /\ (forall b q, dict_get (ap_name b) ad = Some (to_ref q) -> List.In q (kept_in h r d)).
Proof.
  intros R ND. destruct (find_dict h (At r) (bs "AP") d R) as [(m & ad & E & M)|(E & NE)].
  - exists h, d, m, ad. split; [exact E|].
    assert (DR : deref h (dict_get (bs "AP") d) = Some (ODict ad)).
    { destruct M as [(_ & ->)|([qn qg] & _ & -> & Q)]; [reflexivity|exact Q]. }
    unfold kept_in in *. rewrite DR in *. apply NoDup_cons_iff in ND. destruct ND as (NR & ND2). rewrite in_app_iff in NR.
    pose proof (nodup_app_disj _ _ ND2) as DJ. apply nodup_app_r in ND2.
    assert (Sg : stage h r d m ad).
    { split; [exact R|]. destruct M as [M|(q & M1 & M2 & M3)]; [left; exact M|]. right. exists q. split; [exact M1|]. split; [|split; assumption].
      intro; subst q. apply NR. left. rewrite M2, ref_in_to. left. reflexivity. }
    assert (MQ : forall q, m = At q -> List.In q (ref_in (dict_get (bs "AP") d))).
    { intros q ->. destruct M as [(M & _)|(q' & M1 & M2 & _)]; [discriminate M|]. injection M1 as <-. rewrite M2, ref_in_to. left. reflexivity. }
    split; [exact Sg|]. split; [split|split; [apply only_refl|split; [reflexivity|split; [|split]]]].
    + intros b q G. pose proof (in_three _ _ _ G) as T. split.
      * intro; subst q. apply NR. right. exact T.
      * intro; subst m. apply (DJ q); [apply MQ; reflexivity|exact T].
    + intros b c q N G. eapply three_apart; eassumption.
    + intros k st y P. apply (app_stage _ _ _ _ _ _ _ _ Sg). exact P.
    + intros q Q. right. apply in_or_app. left. apply MQ, Q.
    + intros b q G. right. apply in_or_app. right. eapply in_three, G.
  - exists (PageModel.set r (Some (ODict (add_key (bs "AP") (ODict []) d))) h), (add_key (bs "AP") (ODict []) d), (LinkModel.In (At r) (bs "AP")), [].
    split; [exact E|]. split; [split; [apply set_same|left; split; [reflexivity|apply get_add_same]]|].
    split; [split; [intros b q G; discriminate G|intros b c q _ G; discriminate G]|].
    split; [apply only_add; left; reflexivity|]. split; [intros q N; apply set_other, N|]. split; [|split; [discriminate|intros b q G; discriminate G]].
    intros k st y (d' & ad' & R' & EN & _). assert (d' = d) by congruence. subst d'. exfalso. eapply NE, EN.
Qed.
Lemma apart_add r l ad a v : apart r l ad -> (forall n g, v <> ORef n g) -> apart r l (add_key (ap_name a) v ad).
Proof.
  intros (A1 & A2) N. assert (B : forall b q, dict_get (ap_name b) (add_key (ap_name a) v ad) = Some (to_ref q) -> dict_get (ap_name b) ad = Some (to_ref q)).
  { intros b q G. destruct (beq (ap_name b) (ap_name a)) eqn:E.
    - apply beq_eq in E. rewrite E in G. unfold add_key in G. rewrite get_add_same in G. injection G as ->. exfalso. eapply N. reflexivity.
    - unfold add_key in G. rewrite get_add_other in G by exact E. exact G. }
  split; [intros b q G; apply (A1 b), B, G|]. intros b c q D G G'. eapply A2; [exact D|apply B, G|apply B, G'].
Qed.
Lemma keeps_trans h0 ad0 a st h1 ad1 h2 ad2 : keeps h0 ad0 a st h1 ad1 -> keeps h1 ad1 a st h2 ad2 -> keeps h0 ad0 a st h2 ad2.
Proof. intros A B b st' y N P. apply B; [exact N|]. apply A; assumption. Qed.
(** The states in place, wherever they are *)
Lemma set_state h r d l ad x a st : stage h r d l ad -> apart r l ad -> st <> [] ->
  let (h0, inner) := need_dict h l (ap_name a) in let h' := write h0 (LinkModel.In inner st) (to_ref x) in
  exists d' ad', stage h' r d' l ad' /\ apart r l ad' /\ only [bs "AP"] d d' /\
    (forall q, q <> r -> l <> At q -> dict_get (ap_name a) ad <> Some (to_ref q) -> h' q = h q) /\
    app_in h' ad' (ap_name a) st x /\ keeps h ad a st h' ad'.
Proof.
  intros Sg AP NS. pose proof (stage_read _ _ _ _ _ Sg) as R. destruct (find_dict h l (ap_name a) ad R) as [(m & sd & E & M)|(E & NE)]; rewrite E.
  - destruct M as [(-> & G)|(q & -> & G & Q)].
    + destruct (set_state_in _ _ _ _ _ x a st sd Sg AP NS G) as (d' & S1 & O & F & P & K). eexists d', _. split; [exact S1|].
      split; [apply apart_add; [exact AP|discriminate]|]. split; [exact O|]. split; [intros; apply F; assumption|]. split; [exact P|exact K].
    + destruct (set_state_at _ _ _ _ _ x a st sd q Sg AP NS G Q) as (S1 & F & P & K). exists d, ad. split; [exact S1|]. split; [exact AP|].
      split; [apply only_refl|]. split; [|split; [exact P|exact K]]. intros p _ _ N. apply F. intro; subst. contradiction.
  - destruct (stage_write _ _ _ _ _ (add_key (ap_name a) (ODict []) ad) Sg) as (d1 & S1 & O1 & F1).
    assert (AP1 : apart r l (add_key (ap_name a) (ODict []) ad)) by (apply apart_add; [exact AP|discriminate]).
    destruct (set_state_in _ _ _ _ _ x a st [] S1 AP1 NS (get_add_same _ _ _)) as (d' & S2 & O2 & F2 & P & K). eexists d', _. split; [exact S2|].
    split; [apply apart_add; [exact AP1|discriminate]|]. split; [eapply only_trans; eassumption|].
    split; [intros q N1 N2 _; rewrite F2, F1 by assumption; reflexivity|]. split; [exact P|]. eapply keeps_trans; [|exact K].
    intros b st' y N P1. assert (D : b = a \/ b <> a) by (destruct a, b; (left; reflexivity) || (right; discriminate)). destruct D as [->|D].
    + destruct N as [N|(_ & N1 & N2)]; [congruence|]. destruct P1 as [(E1 & _)|(_ & sd' & E1 & X)]; [contradiction|]. exfalso. eapply NE, E1.
    + eapply app_moves; [| |exact P1].
      * apply get_add_other, ap_name_other, D.
      * intros q Q. destruct AP as (A1 & _). destruct (A1 _ _ Q). apply F1; assumption.
Qed.
Lemma set_appearance_ok h r d x a st : h r = Some (ODict d) -> NoDup (kept_in h r d) -> exists h' d', set_appearance h r x a st = Ok h' /\
  appearance h' r (ap_name a) st x /\
  (forall b st' y, b <> a \/ st <> [] /\ st' <> [] /\ st' <> st -> appearance h r (ap_name b) st' y -> appearance h' r (ap_name b) st' y) /\
  (forall q, ~ List.In q (kept_in h r d) -> h' q = h q) /\ h' r = Some (ODict d') /\ only [bs "AP"; bs "AS"] d d' /\
  dict_get (bs "AS") d' = match st, dict_get (bs "AS") d with _ :: _, None => Some (OName st) | _, v => v end.
Proof.
  intros R ND. destruct (prep h r d R ND) as (h1 & d1 & l & ad & E & Sg & AP & O & F & P & LQ & BQ).
  assert (KR : List.In r (kept_in h r d)) by (left; reflexivity).
  unfold set_appearance, dict_at. rewrite R. cbn [bind]. rewrite E. destruct st as [|c st].
  - destruct (set_plain _ _ _ _ _ x a Sg AP) as (d' & S1 & O1 & F1 & P1 & K1). eexists _, d'. split; [reflexivity|].
    split; [apply (app_stage _ _ _ _ _ _ _ _ S1), P1|].
    split; [intros b st' y N A; apply (app_stage _ _ _ _ _ _ _ _ S1), K1; [exact N|apply P, A]|].
    split; [|split; [apply S1|split]].
    + intros q N. rewrite F1, F; [reflexivity|congruence|congruence|]. intro; subst l. apply N, LQ. reflexivity.
    + apply only_more with (ks := [bs "AP"]); [intros k [<-|[]]; left; reflexivity|]. eapply only_trans; eassumption.
    + rewrite O1, O; [destruct (dict_get (bs "AS") d); reflexivity| |]; (intros [X|[]]; discriminate X).
  - assert (NS : c :: st <> []) by discriminate. set (s := c :: st) in *. clearbody s.
    pose proof (set_state _ _ _ _ _ x a s Sg AP NS) as SS. destruct (need_dict h1 l (ap_name a)) as [h0 inner]. cbv zeta in SS.
    destruct SS as (d2 & ad2 & S2 & AP2 & O2 & F2 & P2 & K2). set (h2 := write h0 (LinkModel.In inner s) (to_ref x)) in *. clearbody h2.
    assert (R2 : h2 r = Some (ODict d2)) by apply S2. rewrite R2. cbn [bind].
    assert (AS2 : dict_get (bs "AS") d2 = dict_get (bs "AS") d) by (rewrite O2, O; [reflexivity| |]; (intros [X|[]]; discriminate X)).
    assert (ON : only [bs "AP"] d d2) by (eapply only_trans; eassumption).
    assert (FR : forall q, ~ List.In q (kept_in h r d) -> h2 q = h q).
    { intros q N. rewrite F2, F; [reflexivity|congruence|congruence| |].
      - intro; subst l. apply N, LQ. reflexivity.
      - intro G. apply N. eapply BQ, G. }
    assert (MS : forall k, List.In k [bs "AP"] -> List.In k [bs "AP"; bs "AS"]) by (intros k [<-|[]]; left; reflexivity).
    unfold has_key. rewrite AS2. destruct (dict_get (bs "AS") d) as [v|] eqn:AS.
    + exists h2, d2. split; [reflexivity|]. split; [apply (app_stage _ _ _ _ _ _ _ _ S2), P2|].
      split; [intros b st' y N A; apply (app_stage _ _ _ _ _ _ _ _ S2), K2; [exact N|apply P, A]|].
      split; [exact FR|]. split; [exact R2|]. split; [eapply only_more; eassumption|]. rewrite AS2. destruct s; reflexivity.
    + unfold set_key, dict_at. rewrite R2. cbn [bind]. set (h3 := PageModel.set _ _ h2).
      pose proof (stage_as _ _ _ _ _ (OName s) S2) as S3. fold h3 in S3.
      assert (F3 : forall q, q <> r -> h3 q = h2 q) by (intros q N; apply set_other, N).
      eexists h3, _. split; [reflexivity|]. split; [apply (app_stage _ _ _ _ _ _ _ _ S3); eapply app_frame; [reflexivity|exact AP2|exact F3|exact P2]|].
      split; [intros b st' y N A; apply (app_stage _ _ _ _ _ _ _ _ S3); eapply app_frame; [reflexivity|exact AP2|exact F3|]; apply K2; [exact N|apply P, A]|].
      split; [intros q N; rewrite F3 by congruence; apply FR, N|]. split; [apply S3|]. split.
      * eapply only_trans; [eapply only_more; eassumption|]. apply only_add. right. left. reflexivity.
      * unfold add_key. rewrite get_add_same. destruct s; [congruence|reflexivity].
Qed.
(** The getter *)
Lemma get_appearance_ok h r a st x v : appearance h r (ap_name a) st x -> h x = Some v -> get_appearance h r a st = Ok (Some (At x)).
Proof.
  intros (d & ad & R & E & A) X. unfold get_appearance, ap_dict, dict_at. rewrite R. cbn [bind].
  destruct (find_at h (At r) _ _ _ R E) as (m & -> & Rm). rewrite Rm. cbn [bind].
  assert (FX : forall l dd k, read h l = Some (ODict dd) -> dict_get k dd = Some (to_ref x) -> find_loc h l k = Some (At x)).
  { intros l dd k RR G. unfold find_loc. rewrite (read_in _ _ _ _ RR), G. destruct x as [n g]. cbn [to_ref fst snd]. rewrite X. reflexivity. }
  destruct A as [(-> & G)|(N & sd & E2 & G)].
  - rewrite (FX _ _ _ Rm G). reflexivity.
  - destruct (find_at _ _ _ _ _ Rm E2) as (m2 & -> & Rm2). destruct st as [|c st]; [congruence|].
    unfold dict_of. rewrite Rm2. cbn [bind]. rewrite (FX _ _ _ Rm2 G). reflexivity.
Qed.
