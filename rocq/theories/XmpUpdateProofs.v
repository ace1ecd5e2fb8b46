(** Updating an XMP packet *)
From Coq Require Import String Lia.
From Verif Require Import Base TokModel TextModel WriteModel DateModel DatePropLemmas ConformProofs ChainProofs XmpModel XmpSpec XmpProofs XmpPropLemmas.
Local Open Scope Z_scope.

(** ** Removing *)

Lemma tk_named k x : tk k x = true <-> elem_named (fst (tag k)) (snd (tag k)) x.
Proof. apply tagb_named. Qed.
Lemma remove_one k kids : Forall safe kids -> exists kids', remove_prop k kids = Ok kids' /\
  (forall P, Forall P kids -> Forall P kids') /\
  (forall f, (forall x, tk k x = true -> f x = false) -> filter f kids' = filter f kids) /\
  (forall f, length (filter f kids') <= length (filter f kids))%nat /\
  (length (filter (tk k) kids) <= 1 -> filter (tk k) kids' = [])%nat.
Proof.
  intros S. unfold remove_prop. pose proof (find_child_filter (fst (tag k)) (snd (tag k)) kids S) as H.
  change (tagb (fst (tag k)) (snd (tag k))) with (tk k) in H. destruct (filter (tk k) kids) as [|x t] eqn:E.
  - rewrite H. cbn [bind]. exists kids. repeat split; try reflexivity; auto.
  - destruct H as (l & r & -> & -> & HL & HR). cbn [bind]. exists (l ++ r). split; [reflexivity|].
    assert (T : tk k x = true) by (assert (I0 : In x (x :: t)) by (left; reflexivity); rewrite <- E in I0; apply filter_In in I0; tauto).
    repeat split.
    + intros P H. apply Forall_app in H. destruct H as [H1 H2]. apply Forall_app. split; [exact H1|]. inversion H2; assumption.
    + intros f Hf. rewrite !filter_app. cbn [filter]. rewrite (Hf x T). reflexivity.
    + intros f. rewrite !filter_app, !app_length. cbn [filter]. destruct (f x); cbn [length]; lia.
    + intros HT. cbn [length] in HT. rewrite filter_app, HL, HR. destruct t; [reflexivity|cbn [length] in HT; lia].
Qed.
Lemma filter_nil_iff {A} (f : A -> bool) l : filter f l = [] <-> Forall (fun x => f x = false) l.
Proof.
  induction l as [|x l IH]; cbn [filter]; [split; [constructor|reflexivity]|]. destruct (f x) eqn:E; split; intros H; try discriminate H.
  - inversion H; congruence.
  - constructor; [exact E|apply IH, H].
  - apply IH. inversion H; assumption.
Qed.
Lemma remove_all ks : forall kids, Forall safe kids -> exists kids', remove_props ks kids = Ok kids' /\
  (forall P, Forall P kids -> Forall P kids') /\
  (forall f, (forall k x, In k ks -> tk k x = true -> f x = false) -> filter f kids' = filter f kids) /\
  (forall k, In k ks -> length (filter (tk k) kids) <= 1 -> filter (tk k) kids' = [])%nat.
Proof.
  induction ks as [|k ks IH]; intros kids S.
  - exists kids. split; [reflexivity|]. split; [auto|]. split; [reflexivity|]. intros k [].
  - destruct (remove_one k kids S) as (k1 & E & P1 & F1 & L1 & R1). destruct (IH k1 (P1 _ S)) as (k2 & E2 & P2 & F2 & R2).
    cbn [remove_props]. rewrite E. cbn [bind]. exists k2. split; [exact E2|]. split; [intros P H; apply P2, P1, H|]. split.
    + intros f Hf. rewrite F2, F1; [reflexivity| |].
      * intros x. apply Hf. left. reflexivity.
      * intros k' x I'. apply Hf. right. exact I'.
    + intros k' [<-|I'] L.
      * apply filter_nil_iff. apply P2. apply filter_nil_iff. exact (R1 L).
      * apply R2; [exact I'|]. pose proof (L1 (tk k')). lia.
Qed.

(** ** The elements that are kept *)

Definition foreignb (x : xml) : bool := forallb (fun n => negb (tagb (fst n) (snd n) x)) known_names.
Lemma foreignb_iff x : foreignb x = true <-> foreign x.
Proof.
  unfold foreignb, foreign. rewrite forallb_forall, Forall_forall. split; intros H n Hn.
  - intros E. apply tagb_named in E. specialize (H n Hn). rewrite E in H. discriminate H.
  - specialize (H n Hn). destruct (tagb (fst n) (snd n) x) eqn:E; [|reflexivity]. destruct H. apply tagb_named, E.
Qed.
Lemma foreigners_filter l : foreigners l (filter foreignb l).
Proof.
  induction l as [|x l IH]; cbn [filter]; [constructor|]. destruct (foreignb x) eqn:E.
  - constructor; [apply foreignb_iff, E|exact IH].
  - constructor; [|exact IH]. intros F. apply foreignb_iff in F. congruence.
Qed.
Lemma known_tags : known_names = map tag all_kinds.
Proof. reflexivity. Qed.
Lemma tag_known k : In (tag k) known_names.
Proof. rewrite known_tags. apply in_map. destruct k; cbn; tauto. Qed.
Lemma in_kinds k : In k all_kinds.
Proof. destruct k; cbn; tauto. Qed.
Lemma foreign_not k x : tk k x = true -> foreignb x = false.
Proof.
  intros H. destruct (foreignb x) eqn:E; [|reflexivity]. apply foreignb_iff in E. unfold foreign in E. rewrite Forall_forall in E.
  destruct (E (tag k) (tag_known k)). apply tagb_named. exact H.
Qed.
Lemma all_foreign l : (forall k, filter (tk k) l = []) -> filter foreignb l = l.
Proof.
  intros H. apply filter_all. rewrite Forall_forall. intros x Hx. unfold foreignb. apply forallb_forall. intros n Hn.
  rewrite known_tags in Hn. apply in_map_iff in Hn. destruct Hn as (k & <- & _). specialize (H k). apply filter_nil_iff in H.
  rewrite Forall_forall in H. specialize (H x Hx). unfold tk in H. rewrite H. reflexivity.
Qed.
Lemma filter_cut {A} (f : A -> bool) l x t : filter f l = x :: t -> exists l1 l2, l = l1 ++ x :: l2 /\ filter f l1 = [] /\ filter f l2 = t /\ f x = true.
Proof.
  induction l as [|y l IH]; cbn [filter]; intros H; [discriminate H|]. destruct (f y) eqn:E.
  - injection H as <- <-. exists [], l. repeat split. exact E.
  - destruct (IH H) as (l1 & l2 & -> & H1 & H2 & H3). exists (y :: l1), l2. cbn [app filter]. rewrite E. repeat split; assumption.
Qed.
Lemma single_filter kids k : single kids -> (length (filter (tk k) kids) <= 1)%nat.
Proof.
  intros S. destruct (filter (tk k) kids) as [|x [|y t]] eqn:E; try (cbn [length]; lia). exfalso.
  destruct (filter_cut _ _ _ _ E) as (l1 & l2 & -> & _ & H2 & Hx). destruct (filter_cut _ _ _ _ H2) as (r1 & r2 & -> & _ & _ & Hy).
  pose proof (S (tag k) l1 x (r1 ++ y :: r2) (tag_known k) eq_refl (proj1 (tk_named k x) Hx)) as F.
  apply Forall_app in F. destruct F as [_ F]. apply Forall_app in F. destruct F as [_ F]. apply Forall_inv in F. apply F, tk_named, Hy.
Qed.
Lemma removed kids : Forall safe kids -> single kids -> remove_props all_kinds kids = Ok (filter foreignb kids) /\
  forall k, filter (tk k) (filter foreignb kids) = [].
Proof.
  intros S G. destruct (remove_all all_kinds kids S) as (kids' & E & _ & F & R).
  assert (N : forall k, filter (tk k) kids' = []) by (intros k; apply R; [apply in_kinds|apply single_filter, G]).
  assert (E2 : kids' = filter foreignb kids).
  { rewrite <- (F foreignb) by (intros k x _; apply foreign_not). symmetry. apply all_foreign, N. }
  rewrite <- E2. split; assumption.
Qed.

(** ** The elements that are added *)

Definition keq (a b : kind) : bool :=
  match a, b with
  | KTitle, KTitle | KAuthor, KAuthor | KSubject, KSubject | KKeywords, KKeywords | KCreator, KCreator | KProducer, KProducer | KCreated, KCreated
  | KModified, KModified | KPart, KPart | KConformance, KConformance | KRevision, KRevision => true
  | _, _ => false
  end.
Lemma prop_tag e k k' s : tk k (prop e k' s) = keq k k'.
Proof. destruct k, k'; reflexivity. Qed.
Lemma filter_opt e k k' s : filter (tk k) (opt_prop e k' s) = if keq k k' then opt_prop e k' s else [].
Proof. destruct s as [s|]; cbn [opt_prop filter]; [rewrite prop_tag|]; destruct (keq k k'); reflexivity. Qed.
Definition value (m : meta) (k : kind) : option (list Z) :=
  match k with
  | KTitle => m_title m | KAuthor => m_author m | KSubject => m_subject m | KKeywords => m_keywords m | KCreator => m_creator m
  | KProducer => m_producer m | KCreated => option_map (date_text true) (m_created m) | KModified => option_map (date_text true) (m_modified m)
  | KPart => option_map fst (pdfa (m_level m)) | KConformance => option_map snd (pdfa (m_level m))
  | KRevision => match m_level m with L4E | L4F => Some (bs "2020") | _ => None end
  end.
Lemma level_filter e k l : filter (tk k) (level_props e l) = match k with
  | KPart => opt_prop e KPart (option_map fst (pdfa l)) | KConformance => opt_prop e KConformance (option_map snd (pdfa l))
  | KRevision => opt_prop e KRevision (match l with L4E | L4F => Some (bs "2020") | _ => None end) | _ => [] end.
Proof. destruct l, k; reflexivity. Qed.
Lemma props_filter e m k : filter (tk k) (props e m) = opt_prop e k (value m k).
Proof. unfold props. rewrite !filter_app, !filter_opt, level_filter. destruct k; cbn [keq app value]; rewrite ?app_nil_r; reflexivity. Qed.
Lemma prop_foreign e k s : foreignb (prop e k s) = false.
Proof. apply (foreign_not k). rewrite prop_tag. destruct k; reflexivity. Qed.
Lemma opt_foreign e k s : filter foreignb (opt_prop e k s) = [].
Proof. destruct s; cbn [opt_prop filter]; [rewrite prop_foreign|]; reflexivity. Qed.
Lemma props_foreign e m : filter foreignb (props e m) = [].
Proof.
  unfold props. rewrite !filter_app, !opt_foreign. cbn [app]. destruct (m_level m); cbn [level_props components app]; cbn [filter];
    rewrite ?prop_foreign; reflexivity.
Qed.

(** The values are plain *)
Lemma plain_app a b : plain a -> plain b -> plain (a ++ b).
Proof. intros [A1 A2] [B1 B2]. split; intros H; apply in_app_iff in H; tauto. Qed.
Lemma plain_cons c l : c <> 38 -> c <> 0 -> plain l -> plain (c :: l).
Proof. intros C1 C2 [H1 H2]. split; intros [E|E]; subst; tauto. Qed.
Lemma plain_nil : plain [].
Proof. split; intros []. Qed.
Lemma plain_dec z : 0 <= z -> plain (dec z).
Proof.
  intros H. destruct (LexProofs.dec_spec z H) as (D & _). rewrite Forall_forall in D. split; intros I0; apply D in I0; discriminate I0.
Qed.
Lemma plain_zeros n : plain (repeat 48 n).
Proof. split; intros I0; apply repeat_spec in I0; discriminate I0. Qed.
Lemma plain_pad n z : plain (pad0 n z).
Proof.
  unfold pad0. destruct (z <? 0) eqn:E; [apply plain_cons; [discriminate|discriminate|]|]; apply plain_app; try apply plain_zeros; apply plain_dec; lia.
Qed.
Lemma plain_date d : plain (date_text true d).
Proof.
  unfold date_text. destruct (from_days _) as [[y m] dd]. repeat apply plain_app; try apply plain_pad; try (apply plain_cons; [discriminate|discriminate|exact plain_nil]).
  unfold date_offset. destruct (d_off d) as [o|]; [|exact plain_nil]. destruct (o =? 0); [apply plain_cons; [discriminate|discriminate|exact plain_nil]|].
  apply plain_cons; [destruct (0 <? o); discriminate|destruct (0 <? o); discriminate|]. apply plain_app; [apply plain_pad|].
  apply plain_cons; [discriminate|discriminate|apply plain_pad].
Qed.
Lemma plain_small s : forallb (fun c => negb (c =? 38) && negb (c =? 0)) s = true -> plain s.
Proof. intros H. rewrite forallb_forall in H. split; intros I0; apply H in I0; discriminate I0. Qed.
Lemma writable_values m : writable m -> forall k, plain_opt (value m k).
Proof.
  intros (W1 & W2 & W3 & W4 & W5 & W6 & _ & _) k. destruct k; cbn [value]; try assumption.
  - destruct (m_created m); [apply plain_date|exact Logic.I].
  - destruct (m_modified m); [apply plain_date|exact Logic.I].
  - destruct (m_level m); cbn [pdfa option_map fst plain_opt]; try exact Logic.I; apply plain_small; reflexivity.
  - destruct (m_level m); cbn [pdfa option_map snd plain_opt]; try exact Logic.I; apply plain_small; reflexivity.
  - destruct (m_level m); cbn [plain_opt]; try exact Logic.I; apply plain_small; reflexivity.
Qed.

(** The forms of the elements *)
Definition listed (k : kind) : bool := match k with KTitle | KAuthor | KSubject => true | _ => false end.
Lemma prop_text e k v : listed k = false -> plain v -> prop e k v = XElem (Ns (Some (fst (tag k)))) (snd (tag k)) [] (text_kids v).
Proof. intros L P. unfold prop. rewrite (plain_content e v P). destruct k; try discriminate L; reflexivity. Qed.
Lemma prop_list e k v : listed k = true -> plain v -> exists m c, Forall technical c /\
  prop e k v = XElem (Ns (Some (fst (tag k)))) (snd (tag k)) [] [XElem (Ns (Some (bs "rdf"))) m [] [XElem (Ns (Some (bs "rdf"))) (bs "li") c (text_kids v)]].
Proof.
  intros L P. unfold prop, list_node. rewrite (plain_content e v P).
  assert (T : Forall technical [(Some (bs "xml"), bs "lang", bs "x-default")]) by (constructor; [left; reflexivity|constructor]).
  destruct k; try discriminate L; eexists; eexists; (split; [|reflexivity]); try exact T; constructor.
Qed.
Lemma text_prefixed v : Forall prefixed (text_kids v).
Proof. destruct v; cbn [text_kids]; [constructor|]. constructor; [constructor|constructor]. Qed.
Lemma prop_prefixed e k v : plain v -> prefixed (prop e k v) /\ is_elem (prop e k v) = true.
Proof.
  intros P. split; [|reflexivity]. destruct (listed k) eqn:L.
  - destruct (prop_list e k v L P) as (m & c & _ & ->). constructor; [discriminate|]. constructor; [|constructor]. constructor; [discriminate|].
    constructor; [|constructor]. constructor; [discriminate|apply text_prefixed].
  - rewrite (prop_text e k v L P). constructor; [discriminate|apply text_prefixed].
Qed.
Lemma opt_prefixed e k o : plain_opt o -> Forall (fun x => prefixed x /\ is_elem x = true) (opt_prop e k o).
Proof. destruct o as [v|]; intros P; cbn [opt_prop]; [|constructor]. constructor; [exact (prop_prefixed e k v P)|constructor]. Qed.
Lemma level_as_opts e m : level_props e (m_level m) = opt_prop e KPart (value m KPart) ++ opt_prop e KConformance (value m KConformance) ++
  opt_prop e KRevision (value m KRevision).
Proof. cbn [value]. destruct (m_level m); reflexivity. Qed.
Lemma props_prefixed e m : writable m -> Forall (fun x => prefixed x /\ is_elem x = true) (props e m).
Proof.
  intros W. pose proof (writable_values m W) as V. unfold props. rewrite level_as_opts.
  change (m_title m) with (value m KTitle). change (m_author m) with (value m KAuthor). change (m_subject m) with (value m KSubject).
  change (m_keywords m) with (value m KKeywords). change (m_creator m) with (value m KCreator). change (m_producer m) with (value m KProducer).
  change (option_map (date_text true) (m_created m)) with (value m KCreated). change (option_map (date_text true) (m_modified m)) with (value m KModified).
  repeat (apply Forall_app; split); apply opt_prefixed, V.
Qed.

(** ** The new packet says the metadata *)

Section Written.
Variables (e : env) (m : meta) (p : xml) (attrs : list attr) (F : list xml).
Let K := F ++ props e m.
Let d := XElem (Ns (Some (bs "rdf"))) (bs "Description") attrs K.
Hypothesis hd : has_descriptions [d] p.
Hypothesis isd : is_description attrs K d.
Hypothesis free : Forall (fun a => Forall (fun n => fst a <> (Some (fst n), snd n)) known_names) attrs.
Hypothesis gone : forall k, filter (tk k) F = [].
Hypothesis W : writable m.
Lemma found_prop k : filter (tk k) K = opt_prop e k (value m k).
Proof. unfold K. rewrite filter_app, gone, props_filter. reflexivity. Qed.
Lemma attrs_free k : Forall (fun a => ~ attr_named (fst (tag k)) (snd (tag k)) a) attrs.
Proof.
  eapply Forall_impl; [|exact free]. intros a H E. rewrite Forall_forall in H. exact (H (tag k) (tag_known k) E).
Qed.
Lemma not_named k l : filter (tk k) l = [] -> Forall (fun x => ~ elem_named (fst (tag k)) (snd (tag k)) x) l.
Proof.
  intros H. apply filter_nil_iff in H. eapply Forall_impl; [|exact H]. intros x E N. apply tk_named in N. congruence.
Qed.
Lemma silent_there k : value m k = None -> packet_silent (fst (tag k)) (snd (tag k)) p.
Proof.
  intros V. exists [d]. split; [exact hd|]. constructor; [|constructor]. exists attrs, K. split; [exact isd|]. split; [apply attrs_free|].
  apply not_named. rewrite found_prop, V. reflexivity.
Qed.
Lemma cut_there k v : value m k = Some v -> exists k1 k2, K = k1 ++ prop e k v :: k2 /\
  Forall (fun x => ~ elem_named (fst (tag k)) (snd (tag k)) x) (k1 ++ k2).
Proof.
  intros V. pose proof (found_prop k) as E. rewrite V in E. cbn [opt_prop] in E. destruct (filter_cut _ _ _ _ E) as (k1 & k2 & EK & H1 & H2 & _).
  exists k1, k2. split; [exact EK|]. apply Forall_app. split; apply not_named; assumption.
Qed.
Lemma single_one (P Q : xml -> Prop) x : P x -> one_of P Q [x].
Proof. intros H. exists [], x, []. split; [reflexivity|]. split; [exact H|constructor]. Qed.
Lemma text_there k : listed k = false -> shows_text (fst (tag k)) (snd (tag k)) (value m k) p.
Proof.
  intros L. destruct (value m k) as [v|] eqn:V; [|exact (silent_there k V)]. exists [d]. split; [exact hd|]. apply single_one.
  pose proof (writable_values m W k) as P. rewrite V in P. destruct (cut_there k v V) as (k1 & k2 & EK & N). rewrite (prop_text e k v L P) in EK.
  pose proof isd as D. rewrite EK in D. exact (SaysElem _ _ _ d attrs k1 [] k2 D (Forall_nil _) (attrs_free k) N).
Qed.
Lemma list_there k : listed k = true -> shows_list (fst (tag k)) (snd (tag k)) (value m k) p.
Proof.
  intros L. destruct (value m k) as [v|] eqn:V; [|exact (silent_there k V)]. exists [d]. split; [exact hd|]. apply single_one.
  pose proof (writable_values m W k) as P. rewrite V in P. destruct (cut_there k v V) as (k1 & k2 & EK & N).
  destruct (prop_list e k v L P) as (t & c & C & E). rewrite E in EK. pose proof isd as D. rewrite EK in D.
  exact (Lists _ _ _ d attrs k1 [] _ t [] c [] k2 D (Forall_nil _) (Forall_nil _) C (attrs_free k) N).
Qed.
Lemma states_there : states m p.
Proof.
  repeat split.
  - exact (list_there KTitle eq_refl).
  - exact (list_there KAuthor eq_refl).
  - exact (list_there KSubject eq_refl).
  - exact (text_there KKeywords eq_refl).
  - exact (text_there KCreator eq_refl).
  - exact (text_there KProducer eq_refl).
  - exact (text_there KCreated eq_refl).
  - exact (text_there KModified eq_refl).
  - exact (text_there KPart eq_refl).
  - exact (text_there KConformance eq_refl).
Qed.
End Written.

Lemma single_by kids : (forall k, (length (filter (tk k) kids) <= 1)%nat) -> single kids.
Proof.
  intros H n k1 x k2 Hn -> Hx. rewrite known_tags in Hn. apply in_map_iff in Hn. destruct Hn as (k & <- & _). specialize (H k).
  apply tk_named in Hx. rewrite filter_app, app_length in H. cbn [filter] in H. rewrite Hx in H. cbn [length] in H.
  apply Forall_app. split; apply not_named.
  - destruct (filter (tk k) k1); [reflexivity|cbn [length] in H; lia].
  - destruct (filter (tk k) k2); [reflexivity|cbn [length] in H; lia].
Qed.
Lemma added_single e m F : (forall k, filter (tk k) F = []) -> single (F ++ props e m).
Proof.
  intros G. apply single_by. intros k. rewrite filter_app, G, props_filter. destruct (value m k); cbn; lia.
Qed.
Lemma elems_iff l : Forall (fun x => exists n m a k, x = XElem n m a k) l <-> Forall (fun x => is_elem x = true) l.
Proof.
  split; intros H; eapply Forall_impl; try exact H; cbn beta; intros x.
  - intros (n & m & a & k & ->). reflexivity.
  - destruct x as [s| |n m a k]; intros E; try discriminate E. eauto.
Qed.
Lemma update_normal e kids p m : normal kids p -> single kids -> writable m -> exists kids' p', update e (Some p) m = Ok p' /\ differ kids kids' p p' /\
  (exists F, foreigners kids F /\ foreigners kids' F) /\ states m p' /\ normal kids' p' /\ single kids'.
Proof.
  intros (d & attrs & HD & D & FA) SG W. pose proof HD as (P & _ & n & pa & l & r & -> & L). pose proof D as (Ed & EK & PA). subst d.
  pose proof (prefixed_kids _ _ _ _ P) as PK. pose proof (prefixed_all _ PK) as SK. pose proof PK as PK2. apply Forall_app in PK2. destruct PK2 as [PL PK2].
  pose proof (Forall_inv PK2) as PR. pose proof (Forall_inv_tail PK2) as Pr. pose proof (prefixed_kids _ _ _ _ PR) as PD. apply Forall_inv in PD.
  pose proof (prefixed_kids _ _ _ _ PD) as PKids. pose proof (prefixed_all _ PKids) as SKids.
  destruct (removed kids SKids SG) as [RM GONE].
  set (F := filter foreignb kids) in *. set (K' := F ++ props e m). set (d' := XElem (Ns (Some (bs "rdf"))) (bs "Description") attrs K').
  set (p' := XElem n (bs "xmpmeta") pa (l ++ XElem (Ns (Some (bs "rdf"))) (bs "RDF") [] [d'] :: r)).
  pose proof (props_prefixed e m W) as PP.
  assert (PK' : Forall prefixed K').
  { apply Forall_app. split; [apply Forall_filter2, PKids|]. eapply Forall_impl; [|exact PP]. intros x H. apply H. }
  assert (D' : is_description attrs K' d').
  { split; [reflexivity|]. split; [|exact PA]. apply elems_iff, Forall_app. split; [apply Forall_filter2, elems_iff, EK|].
    eapply Forall_impl; [|exact PP]. intros x H. apply H. }
  assert (HD' : has_descriptions [d'] p').
  { split; [|split; [discriminate|]].
    - inversion P as [| |? ? ? ? N _]; subst. constructor; [exact N|]. apply Forall_app. split; [exact PL|]. constructor; [|exact Pr].
      constructor; [discriminate|]. constructor; [|constructor]. constructor; [discriminate|exact PK'].
    - exists n, pa, l, r. split; [reflexivity|exact L]. }
  exists K', p'. split; [|split; [|split; [|split; [|split]]]].
  - unfold update, on_description. cbn [kids_of]. rewrite (find_there _ _ _ _ _ SK L) by reflexivity. cbn [bind kids_of find_child is_tag].
    rewrite !beq_refl. cbn [andb bind kids_of]. unfold set_meta. rewrite RM. cbn [bind put_kids app]. reflexivity.
  - exists n, (bs "xmpmeta"), pa, l, (Ns (Some (bs "rdf"))), (bs "RDF"), [], [], (Ns (Some (bs "rdf"))), (bs "Description"), attrs, [], r.
    split; reflexivity.
  - exists F. split; [apply foreigners_filter|]. pose proof (foreigners_filter K') as H. unfold K' in H at 2. rewrite filter_app, props_foreign, app_nil_r in H.
    rewrite (all_foreign F GONE) in H. exact H.
  - exact (states_there e m p' attrs F HD' D' FA GONE W).
  - exists d', attrs. split; [exact HD'|]. split; [exact D'|exact FA].
  - exact (added_single e m F GONE).
Qed.
Lemma update_new e m : writable m -> exists kids' p', update e None m = Ok p' /\ foreigners kids' [] /\ states m p' /\ normal kids' p' /\ single kids'.
Proof.
  intros W. set (K' := props e m). set (attrs := [(Some (bs "rdf"), bs "about", @nil Z)]).
  set (d' := XElem (Ns (Some (bs "rdf"))) (bs "Description") attrs K').
  set (p' := XElem (Ns (Some (bs "x"))) (bs "xmpmeta") [] ([] ++ XElem (Ns (Some (bs "rdf"))) (bs "RDF") [] [d'] :: [])).
  pose proof (props_prefixed e m W) as PP.
  assert (D' : is_description attrs K' d').
  { split; [reflexivity|]. split; [apply elems_iff; eapply Forall_impl; [|exact PP]; intros x H; apply H|]. constructor; [|constructor].
    split; [discriminate|exact plain_nil]. }
  assert (HD' : has_descriptions [d'] p').
  { split; [|split; [discriminate|]].
    - constructor; [discriminate|]. constructor; [|constructor]. constructor; [discriminate|]. constructor; [|constructor]. constructor; [discriminate|].
      eapply Forall_impl; [|exact PP]; intros x H; apply H.
    - exists (Ns (Some (bs "x"))), [], [], []. split; [reflexivity|constructor]. }
  assert (FA : Forall (fun a => Forall (fun n => fst a <> (Some (fst n), snd n)) known_names) attrs).
  { constructor; [|constructor]. unfold known_names. repeat (constructor; [discriminate|]). constructor. }
  exists K', p'. split; [|split; [|split; [|split]]].
  - unfold update, on_description. cbn [new_packet kids_of find_child bind]. unfold set_meta.
    assert (RM : forall ks, remove_props ks [] = Ok []) by (induction ks as [|k ks IH]; [reflexivity|exact IH]).
    cbn [new_desc kids_of]. rewrite RM. reflexivity.
  - pose proof (foreigners_filter K') as H. unfold K' in H at 2. rewrite props_foreign in H. exact H.
  - exact (states_there e m p' attrs [] HD' D' FA (fun k => eq_refl) W).
  - exists d', attrs. split; [exact HD'|]. split; [exact D'|exact FA].
  - exact (added_single e m [] (fun k => eq_refl)).
Qed.

(** ** Reading what was written *)

Definition kept (m : meta) : meta :=
  mk_meta (m_title m) (m_author m) (m_subject m) (m_keywords m) None (m_producer m) (m_created m) (m_modified m) (m_level m).
Lemma date_back (o : option date) : date_ok o -> w3c_date (option_map (date_text true) o) = Ok o.
Proof.
  destruct o as [[s f]|]; [|reflexivity]. intros [H1 H2]. cbn [option_map w3c_date]. rewrite (proj2 (round_trip s f H1 H2)). reflexivity.
Qed.
Lemma shows_found e p q K k o : create e (Some p) = Ok (Some q) -> description q = Ok (Some K) -> shows_text (fst (tag k)) (snd (tag k)) o p ->
  the_text k K = o /\ the_item k K = None.
Proof.
  intros C D H. destruct o as [v|]; cbn [shows_text] in H; [exact (says_found e p q K k v C D H)|exact (silent_found e p q K k C D H)].
Qed.
Lemma shows_item e p q K k o : create e (Some p) = Ok (Some q) -> description q = Ok (Some K) -> shows_list (fst (tag k)) (snd (tag k)) o p ->
  the_item k K = o.
Proof.
  intros C D H. destruct o as [v|]; cbn [shows_list] in H; [exact (lists_found e p q K k v C D H)|exact (proj2 (silent_found e p q K k C D H))].
Qed.
Lemma reload e p m : (exists kids, normal kids p) -> states m p -> date_ok (m_created m) -> date_ok (m_modified m) ->
  exists q, get_meta e (Some p) = Ok (Some q, kept m).
Proof.
  intros (kids & d & attrs & HD & D & _) (S1 & S2 & S3 & S4 & S5 & S6 & S7 & S8 & S9 & S10) O1 O2.
  destruct (packet_becomes e p [d] HD) as (q & Ks & C & DD & _ & SF); [constructor; [exists attrs, kids; exact D|constructor]|].
  exists q. rewrite (get_meta_eq e p q _ C DD SF).
  rewrite (shows_item e p q _ KTitle _ C DD S1), (shows_item e p q _ KAuthor _ C DD S2), (shows_item e p q _ KSubject _ C DD S3).
  rewrite (proj1 (shows_found e p q _ KKeywords _ C DD S4)), (proj2 (shows_found e p q _ KCreator _ C DD S5)), (proj1 (shows_found e p q _ KProducer _ C DD S6)).
  rewrite (proj1 (shows_found e p q _ KCreated _ C DD S7)), (proj1 (shows_found e p q _ KModified _ C DD S8)). rewrite (date_back _ O1), (date_back _ O2). cbn [bind].
  unfold the_level. rewrite (proj1 (shows_found e p q _ KPart _ C DD S9)), (proj1 (shows_found e p q _ KConformance _ C DD S10)).
  unfold kept. do 3 f_equal. destruct (m_level m); reflexivity.
Qed.

(** ** What is made of a clear packet *)

Lemma skip_known k v : skip_attr (Some (fst (tag k)), snd (tag k), v) = false.
Proof. apply kind_facts. Qed.
Lemma becomes_shape e attrs kids d : is_description attrs kids d -> prefixed d -> exists K, norm e d = Ok (XElem rdf_ns (bs "Description") (filter skip_attr attrs) K) /\
  Forall safe K /\ Forall (fun x => is_elem x = true) K.
Proof.
  intros D P. destruct (norm_desc e attrs kids d D P) as (kids' & new & HN & HK & HA).
  destruct (desc_shape e _ _ _ _ _ D P HK HA) as [S1 S2]. exists (kids' ++ new). repeat split; assumption.
Qed.
Lemma created_shape e p ds : has_descriptions ds p -> Forall described ds -> exists n pa l r attrs K, 
  create e (Some p) = Ok (Some (XElem n (bs "xmpmeta") pa (l ++ XElem (Ns (Some (bs "rdf"))) (bs "RDF") [] [XElem (Ns (Some (bs "rdf"))) (bs "Description") (filter skip_attr attrs) K] :: r))) /\
  Forall (fun x => ~ elem_named (bs "rdf") (bs "RDF") x) l /\ Forall (fun a => fst a <> (Some (bs "rdf"), bs "parseType") /\ plain (snd a)) attrs /\
  Forall (fun x => is_elem x = true) K.
Proof.
  intros (P & NE & n & pa & l & r & -> & L) D. pose proof (prefixed_kids _ _ _ _ P) as PK.
  pose proof (prefixed_all _ PK) as SK. apply Forall_app in PK. destruct PK as [_ PK]. apply Forall_inv in PK.
  pose proof (prefixed_kids _ _ _ _ PK) as PD. destruct ds as [|d ds]; [destruct (NE eq_refl)|].
  pose proof (Forall_inv D) as (attrs & kids & Dd). pose proof (Forall_inv_tail D) as Dt. pose proof (Forall_inv PD) as Pd. pose proof (Forall_inv_tail PD) as Pt.
  destruct (becomes_shape e attrs kids d Dd Pd) as (K & NK & _ & EK). destruct (descs_become e ds Dt Pt) as [Ks HKs]. destruct (each_descs e ds Ks HKs) as (ds' & E & F).
  assert (EC : Forall (Forall (fun x => is_elem x = true)) Ks).
  { clear - HKs. induction HKs as [|d K ds Ks (a & _ & H1 & H2) _ I2]; constructor; assumption. }
  assert (IE : is_elem d = true) by (destruct Dd as (-> & _); reflexivity).
  assert (NR : norm e (XElem (Ns (Some (bs "rdf"))) (bs "RDF") [] (d :: ds)) =
    Ok (XElem rdf_ns (bs "RDF") [] (XElem rdf_ns (bs "Description") (filter skip_attr attrs) K :: ds'))).
  { rewrite norm_unfold by (apply is_leaf_elem, IE). cbn [each]. rewrite NK. cbn [bind]. rewrite E. cbn [bind]. cbn [existsb]. rewrite IE.
    cbn [orb new_elems is_resource parse_type filter map each bind]. unfold norm_elem. cbn [is_resource parse_type filter]. rewrite app_nil_r. reflexivity. }
  exists n, pa, l, r, attrs, (K ++ concat Ks). split; [|split; [exact L|split; [exact (proj2 (proj2 Dd))|]]].
  - unfold create. rewrite beq_refl. unfold normalize. rewrite (find_there _ _ _ _ _ SK L) by reflexivity. cbn [bind]. rewrite NR. cbn [bind].
    cbn [find_child is_tag rdf_ns]. rewrite !beq_refl. cbn [andb bind]. rewrite (merge_descs _ _ F EC). cbn [bind app]. reflexivity.
  - apply Forall_app. split; [exact EK|]. apply Forall_concat. exact EC.
Qed.
Lemma description_of n pa l r a K : Forall safe (l ++ XElem (Ns (Some (bs "rdf"))) (bs "RDF") [] [XElem (Ns (Some (bs "rdf"))) (bs "Description") a K] :: r) ->
  Forall (fun x => ~ elem_named (bs "rdf") (bs "RDF") x) l ->
  description (XElem n (bs "xmpmeta") pa (l ++ XElem (Ns (Some (bs "rdf"))) (bs "RDF") [] [XElem (Ns (Some (bs "rdf"))) (bs "Description") a K] :: r)) = Ok (Some K).
Proof.
  intros S L. unfold description. cbn [kids_of]. rewrite (find_there _ _ _ _ _ S L) by reflexivity. cbn [bind kids_of find_child is_tag].
  rewrite !beq_refl. cbn [andb bind kids_of]. reflexivity.
Qed.
Lemma created_normal e p ds : honest e -> has_descriptions ds p -> Forall described ds -> exists q kids, create e (Some p) = Ok (Some q) /\
  description q = Ok (Some kids) /\ normal kids q.
Proof.
  intros H HD D. destruct (created_shape e p ds HD D) as (n & pa & l & r & attrs & K & C & L & A & EK).
  destruct (create_total e p H (proj1 HD)) as (q & C' & PQ). rewrite C in C'. apply ok_inj in C'. rewrite <- C' in PQ.
  exists (XElem n (bs "xmpmeta") pa (l ++ XElem (Ns (Some (bs "rdf"))) (bs "RDF") [] [XElem (Ns (Some (bs "rdf"))) (bs "Description") (filter skip_attr attrs) K] :: r)), K.
  split; [exact C|]. split; [apply description_of; [apply prefixed_all; exact (prefixed_kids _ _ _ _ PQ)|exact L]|].
  exists (XElem (Ns (Some (bs "rdf"))) (bs "Description") (filter skip_attr attrs) K), (filter skip_attr attrs). split; [|split].
  - split; [exact PQ|]. split; [discriminate|]. exists n, pa, l, r. split; [reflexivity|exact L].
  - split; [reflexivity|]. split; [apply elems_iff, EK|]. apply Forall_filter2, A.
  - rewrite Forall_forall. intros a Ha. apply filter_In in Ha. destruct Ha as [_ Ha]. rewrite Forall_forall. intros t Ht E.
    rewrite known_tags in Ht. apply in_map_iff in Ht. destruct Ht as (k & <- & _). destruct a as [f v]. cbn [fst] in E. subst f.
    rewrite skip_known in Ha. discriminate Ha.
Qed.
Lemma clear_normal e p : honest e -> clear_packet p -> exists q kids, create e (Some p) = Ok (Some q) /\ normal kids q /\ single kids.
Proof.
  intros H CP. assert (X : exists ds, has_descriptions ds p /\ Forall described ds).
  { destruct (CP _ (tag_known KTitle)) as [(ds & HD & S)|[(v & ds & HD & O1)|(v & ds & HD & O1)]]; exists ds; (split; [exact HD|]).
    - eapply Forall_impl; [|exact S]. apply silent_described.
    - exact (one_described _ _ _ _ (says_described _ _ _) O1).
    - exact (one_described _ _ _ _ (lists_described _ _ _) O1). }
  destruct X as (ds & HD & D). destruct (created_normal e p ds H HD D) as (q & kids & C & DD & N). exists q, kids. repeat split; try assumption.
  apply single_by. intros k. destruct (kind_facts k) as (NR & U & PR). destruct (CP _ (tag_known k)) as [S|[(v & S)|(v & S)]].
  - destruct (packet_nothing e (fst (tag k)) (snd (tag k)) NR p S) as (q' & K' & C' & D' & _ & F).
    rewrite C in C'. apply ok_inj in C'. injection C' as <-. rewrite DD in D'. apply ok_inj in D'. injection D' as <-. unfold tk. rewrite F. cbn [length]. lia.
  - destruct (packet_property e (fst (tag k)) (snd (tag k)) NR p (says (fst (tag k)) (snd (tag k)) v) (fun y => content y = v /\ first_elem y = None)) as (q' & K' & y & C' & D' & _ & F & _).
    + exact (says_described _ _ _).
    + intros d Hd Pd. exact (says_has e _ _ NR U PR d v Hd Pd).
    + exact S.
    + rewrite C in C'. apply ok_inj in C'. injection C' as <-. rewrite DD in D'. apply ok_inj in D'. injection D' as <-. unfold tk. rewrite F. cbn [length]. lia.
  - destruct (packet_property e (fst (tag k)) (snd (tag k)) NR p (lists (fst (tag k)) (snd (tag k)) v) (fun y => list_text y = Some v)) as (q' & K' & y & C' & D' & _ & F & _).
    + exact (lists_described _ _ _).
    + intros d Hd Pd. exact (lists_has e _ _ NR d v Hd Pd).
    + exact S.
    + rewrite C in C'. apply ok_inj in C'. injection C' as <-. rewrite DD in D'. apply ok_inj in D'. injection D' as <-. unfold tk. rewrite F. cbn [length]. lia.
Qed.

(** A packet in the form that can be updated is brought into such a form again *)
Lemma same_count (l l' : list xml) f : Forall2 (fun x y => f y = f x) l l' -> length (filter f l') = length (filter f l).
Proof. induction 1 as [|x y l l' H _ IH]; [reflexivity|]. cbn [filter]. rewrite H. destruct (f x); cbn [length]; lia. Qed.
Lemma created_single e p kids : honest e -> normal kids p -> single kids -> exists q kids', create e (Some p) = Ok (Some q) /\
  normal kids' q /\ single kids'.
Proof.
  intros H (d & attrs & HD & D & FA) SG. assert (DD : described d) by (exists attrs, kids; exact D).
  destruct (created_normal e p [d] H HD) as (q & K & C & DQ & N); [constructor; [exact DD|constructor]|]. exists q, K. split; [exact C|]. split; [exact N|].
  destruct (packet_becomes e p [d] HD) as (q' & Ks & C' & D' & B & _); [constructor; [exact DD|constructor]|].
  rewrite C in C'. apply ok_inj in C'. injection C' as <-. rewrite DQ in D'. apply ok_inj in D'. injection D' as EK.
  inversion B as [|? K0 ? Ks0 (a0 & NB & _) B0]; subst. inversion B0; subst. cbn [concat]. rewrite app_nil_r.
  pose proof (has_prefixed _ _ HD) as PD. apply Forall_inv in PD. destruct (norm_desc e attrs kids d D PD) as (kids' & new & HN & HK & HA).
  rewrite NB in HN. apply ok_inj in HN. injection HN as _ ->.
  apply single_by. intros k. rewrite filter_app, app_length. rewrite (same_count kids kids' (tk k)).
  - destruct (kind_facts k) as (NR & _). pose proof (attrs_none e (fst (tag k)) (snd (tag k)) NR) as AN. unfold tk at 2.
    rewrite (AN _ _ HA); [cbn [length]; pose proof (single_filter kids k SG); lia|]. apply Forall_filter.
    eapply Forall_impl; [|exact FA]. intros a HA0 E. rewrite Forall_forall in HA0. exact (HA0 (tag k) (tag_known k) E).
  - clear - HK. induction HK as [|x y l l' Hxy _ IH]; [constructor|]. constructor; [|exact IH]. unfold tk. apply same_tagb. exact (norm_tag _ _ _ Hxy).
Qed.
