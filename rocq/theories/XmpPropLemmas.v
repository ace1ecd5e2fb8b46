(** The lemmas behind the theorems on XMP packets *)
From Coq Require Import String Lia.
From Verif Require Import Base TokModel TextModel WriteModel DateModel DatePropLemmas ConformProofs ChainProofs XmpModel XmpSpec XmpProofs.
Local Open Scope Z_scope.

(** ** Reading *)

Definition tk (k : kind) : xml -> bool := tagb (fst (tag k)) (snd (tag k)).
Definition the_text (k : kind) (K : list xml) : option (list Z) := option_map content (hd_error (filter (tk k) K)).
Definition the_item (k : kind) (K : list xml) : option (list Z) := match hd_error (filter (tk k) K) with Some x => list_text x | None => None end.
Definition the_level (K : list xml) : level := match the_text KPart K, the_text KConformance K with Some p, Some c => level_of (p ++ c) | _, _ => LUnknown end.
Lemma elem_text_eq k K : Forall safe K -> elem_text k K = Ok (the_text k K).
Proof. intros S. unfold elem_text. rewrite (elem_filter k K S). reflexivity. Qed.
Lemma item_text_eq k K : Forall safe K -> item_text k K = Ok (the_item k K).
Proof. intros S. unfold item_text. rewrite (elem_filter k K S). reflexivity. Qed.
Lemma read_meta_eq K : Forall safe K -> read_meta K =
  (do c <- w3c_date (the_text KCreated K); do d <- w3c_date (the_text KModified K);
   Ok (mk_meta (the_item KTitle K) (the_item KAuthor K) (the_item KSubject K) (the_text KKeywords K) (the_item KCreator K) (the_text KProducer K) c d
         (the_level K))).
Proof. intros S. unfold read_meta. rewrite !elem_text_eq, !item_text_eq by exact S. reflexivity. Qed.
Lemma get_meta_eq e p q K : create e (Some p) = Ok (Some q) -> description q = Ok (Some K) -> Forall safe K -> get_meta e (Some p) =
  (do c <- w3c_date (the_text KCreated K); do d <- w3c_date (the_text KModified K);
   Ok (Some q, mk_meta (the_item KTitle K) (the_item KAuthor K) (the_item KSubject K) (the_text KKeywords K) (the_item KCreator K)
         (the_text KProducer K) c d (the_level K))).
Proof.
  intros C D S. unfold get_meta. rewrite C. cbn [bind packet_meta]. rewrite D. cbn [bind]. rewrite (read_meta_eq K S).
  destruct (w3c_date (the_text KCreated K)); try reflexivity. cbn [bind]. destruct (w3c_date (the_text KModified K)); reflexivity.
Qed.
Lemma kind_facts k : beq (fst (tag k)) (bs "rdf") = false /\ known_list (Ns (Some (fst (tag k)))) (snd (tag k)) = Ok None /\
  forall v, skip_attr (Some (fst (tag k)), snd (tag k), v) = false.
Proof. destruct k; repeat split; reflexivity. Qed.

(** What a packet says about the property [k] is what is found in the description [K] *)
Lemma says_found e p q K k v : create e (Some p) = Ok (Some q) -> description q = Ok (Some K) -> packet_says (fst (tag k)) (snd (tag k)) v p ->
  the_text k K = Some v /\ the_item k K = None.
Proof.
  intros C D H. destruct (kind_facts k) as (N & U & P).
  destruct (packet_property e (fst (tag k)) (snd (tag k)) N p (says (fst (tag k)) (snd (tag k)) v) (fun y => content y = v /\ first_elem y = None)) as (q' & K' & y & C' & D' & _ & F & Y1 & Y2).
  - exact (says_described _ _ _).
  - intros d Hd Pd. exact (says_has e _ _ N U P d v Hd Pd).
  - exact H.
  - rewrite C in C'. apply ok_inj in C'. injection C' as <-. rewrite D in D'. apply ok_inj in D'. injection D' as <-.
    unfold the_text, the_item, tk. rewrite F. cbn [hd_error option_map]. split; [f_equal; exact Y1|]. unfold list_text. rewrite Y2. reflexivity.
Qed.
Lemma lists_found e p q K k v : create e (Some p) = Ok (Some q) -> description q = Ok (Some K) -> packet_lists (fst (tag k)) (snd (tag k)) v p ->
  the_item k K = Some v.
Proof.
  intros C D H. destruct (kind_facts k) as (N & U & P).
  destruct (packet_property e (fst (tag k)) (snd (tag k)) N p (lists (fst (tag k)) (snd (tag k)) v) (fun y => list_text y = Some v)) as (q' & K' & y & C' & D' & _ & F & Y).
  - exact (lists_described _ _ _).
  - intros d Hd Pd. exact (lists_has e _ _ N d v Hd Pd).
  - exact H.
  - rewrite C in C'. apply ok_inj in C'. injection C' as <-. rewrite D in D'. apply ok_inj in D'. injection D' as <-.
    unfold the_item, tk. rewrite F. exact Y.
Qed.
Lemma silent_found e p q K k : create e (Some p) = Ok (Some q) -> description q = Ok (Some K) -> packet_silent (fst (tag k)) (snd (tag k)) p ->
  the_text k K = None /\ the_item k K = None.
Proof.
  intros C D H. destruct (kind_facts k) as (N & _). destruct (packet_nothing e (fst (tag k)) (snd (tag k)) N p H) as (q' & K' & C' & D' & _ & F).
  rewrite C in C'. apply ok_inj in C'. injection C' as <-. rewrite D in D'. apply ok_inj in D'. injection D' as <-.
  unfold the_text, the_item, tk. rewrite F. split; reflexivity.
Qed.
Lemma level_read l a b : pdfa l = Some (a, b) -> level_of (a ++ b) = l.
Proof. destruct l; cbn [pdfa]; intros H; try discriminate H; injection H as <- <-; reflexivity. Qed.

(** The packet has a description, so that its form is known *)
Lemma meta_of e p ds m q : has_descriptions ds p -> Forall described ds -> get_meta e (Some p) = Ok (q, m) ->
  exists q0 K, create e (Some p) = Ok (Some q0) /\ description q0 = Ok (Some K) /\ Forall safe K /\
    m_title m = the_item KTitle K /\ m_author m = the_item KAuthor K /\ m_subject m = the_item KSubject K /\ m_keywords m = the_text KKeywords K /\
    m_creator m = the_item KCreator K /\ m_producer m = the_text KProducer K /\ w3c_date (the_text KCreated K) = Ok (m_created m) /\
    w3c_date (the_text KModified K) = Ok (m_modified m) /\ m_level m = the_level K.
Proof.
  intros H D G. destruct (packet_becomes e p ds H D) as (q0 & Ks & C & DD & _ & S). exists q0, (concat Ks). rewrite (get_meta_eq e p q0 _ C DD S) in G.
  apply bind_ok in G. destruct G as (c & Hc & G). apply bind_ok in G. destruct G as (d & Hd & G). apply ok_inj in G. injection G as _ <-.
  cbn [m_title m_author m_subject m_keywords m_creator m_producer m_created m_modified m_level]. repeat split; assumption.
Qed.
Lemma meta_total e p ds : has_descriptions ds p -> Forall described ds ->
  (exists q m, get_meta e (Some p) = Ok (q, m)) \/
  (get_meta e (Some p) = Err EInvalidDataType).
Proof.
  intros H D. destruct (packet_becomes e p ds H D) as (q0 & Ks & C & DD & _ & S). rewrite (get_meta_eq e p q0 _ C DD S).
  unfold w3c_date. destruct (the_text KCreated (concat Ks)) as [s|]; [destruct (try_parse_w3c s)|]; cbn [bind]; try (right; reflexivity);
    (destruct (the_text KModified (concat Ks)) as [t|]; [destruct (try_parse_w3c t)|]; cbn [bind]; try (right; reflexivity); left; eauto).
Qed.
Lemma one_described (P : xml -> Prop) pre name ds : (forall d, P d -> described d) -> one_of P (silent pre name) ds -> Forall described ds.
Proof.
  intros HP (d1 & d & d2 & -> & Hd & HS). apply Forall_app in HS. destruct HS as [S1 S2]. apply Forall_app.
  split; [eapply Forall_impl; [|exact S1]; apply silent_described|]. constructor; [apply HP, Hd|eapply Forall_impl; [|exact S2]; apply silent_described].
Qed.

(** The three ways of finding a property, with the metadata *)
Lemma read_says e p m q k v : get_meta e (Some p) = Ok (q, m) -> packet_says (fst (tag k)) (snd (tag k)) v p ->
  exists K, the_text k K = Some v /\ the_item k K = None /\ m_keywords m = the_text KKeywords K /\ m_creator m = the_item KCreator K /\ m_producer m = the_text KProducer K /\
    w3c_date (the_text KCreated K) = Ok (m_created m) /\ w3c_date (the_text KModified K) = Ok (m_modified m).
Proof.
  intros G H. destruct H as (ds & H & O1). pose proof (one_described _ _ _ _ (says_described _ _ _) O1) as D.
  destruct (meta_of e p ds m q H D G) as (q0 & K & C & DD & _ & _ & _ & _ & M4 & M5 & M6 & M7 & M8 & _).
  destruct (says_found e p q0 K k v C DD) as [T I0]; [exists ds; split; assumption|]. exists K. repeat split; assumption.
Qed.
Lemma read_lists e p m q k v : get_meta e (Some p) = Ok (q, m) -> packet_lists (fst (tag k)) (snd (tag k)) v p ->
  exists K, the_item k K = Some v /\ m_title m = the_item KTitle K /\ m_author m = the_item KAuthor K /\ m_subject m = the_item KSubject K.
Proof.
  intros G H. destruct H as (ds & H & O1). pose proof (one_described _ _ _ _ (lists_described _ _ _) O1) as D.
  destruct (meta_of e p ds m q H D G) as (q0 & K & C & DD & _ & M1 & M2 & M3 & _).
  pose proof (lists_found e p q0 K k v C DD) as T. exists K. repeat split; try assumption. apply T. exists ds. split; assumption.
Qed.
Lemma read_silent e p m q k : get_meta e (Some p) = Ok (q, m) -> packet_silent (fst (tag k)) (snd (tag k)) p ->
  exists K, the_text k K = None /\ the_item k K = None /\ m_title m = the_item KTitle K /\ m_author m = the_item KAuthor K /\ m_subject m = the_item KSubject K /\
    m_keywords m = the_text KKeywords K /\ m_creator m = the_item KCreator K /\ m_producer m = the_text KProducer K /\
    w3c_date (the_text KCreated K) = Ok (m_created m) /\ w3c_date (the_text KModified K) = Ok (m_modified m) /\ m_level m = the_level K.
Proof.
  intros G (ds & H & S). assert (D : Forall described ds) by (eapply Forall_impl; [|exact S]; apply silent_described).
  destruct (meta_of e p ds m q H D G) as (q0 & K & C & DD & _ & M1 & M2 & M3 & M4 & M5 & M6 & M7 & M8 & M9).
  destruct (silent_found e p q0 K k C DD) as [T I0]; [exists ds; split; assumption|]. exists K. repeat split; assumption.
Qed.
Lemma read_level e p m q l a b : get_meta e (Some p) = Ok (q, m) -> pdfa l = Some (a, b) -> packet_says (bs "pdfaid") (bs "part") a p ->
  packet_says (bs "pdfaid") (bs "conformance") b p -> m_level m = l.
Proof.
  intros G L HA HB. pose proof HA as (ds & H & O1). pose proof (one_described _ _ _ _ (says_described _ _ _) O1) as D.
  destruct (meta_of e p ds m q H D G) as (q0 & K & C & DD & _ & _ & _ & _ & _ & _ & _ & _ & _ & M9).
  destruct (says_found e p q0 K KPart a C DD HA) as [T1 _]. destruct (says_found e p q0 K KConformance b C DD HB) as [T2 _].
  rewrite M9. unfold the_level. rewrite T1, T2. exact (level_read l a b L).
Qed.

(** ** No packet without default namespaces crashes *)

Definition honest (e : env) : Prop := forall s, Forall (fun x => is_elem x = false) (e_other e s).
Lemma no_elem_prefixed l : Forall (fun x => is_elem x = false) l -> Forall prefixed l.
Proof. intros H. eapply Forall_impl; [|exact H]. intros [s| |n m a k] E; [constructor|constructor|discriminate E]. Qed.
Lemma content_prefixed e s : honest e -> Forall prefixed (set_content e s).
Proof.
  intros H. unfold set_content. destruct (entities (LinkModel.c_str s)) as [t|]; [|apply no_elem_prefixed, H].
  destruct t; [constructor|]. repeat constructor.
Qed.
Lemma list_node_prefixed e t s : honest e -> prefixed (list_node e t s).
Proof.
  intros H. unfold list_node. constructor; [discriminate|]. repeat constructor; [discriminate|]. apply content_prefixed, H.
Qed.
Lemma Forall_filter2 {A} (P : A -> Prop) f l : Forall P l -> Forall P (filter f l).
Proof. intros H. rewrite Forall_forall in *. intros x Hx. apply filter_In in Hx. apply H. tauto. Qed.
Lemma new_prefixed e n attrs : honest e -> n <> Ns None -> Forall prefixed (new_elems e n attrs).
Proof.
  intros H N. unfold new_elems. destruct (is_resource attrs); [constructor|]. apply Forall_forall. intros x Hx. apply in_map_iff in Hx.
  destruct Hx as (a & <- & _). unfold attr_elem. constructor; [destruct (fst (fst a)); [discriminate|exact N]|apply content_prefixed, H].
Qed.
Lemma norm_elem_prefixed n name attrs kids new : n <> Ns None -> Forall prefixed kids -> Forall prefixed new -> prefixed (norm_elem n name attrs kids new).
Proof.
  intros N K W. unfold norm_elem. destruct (is_resource attrs).
  - constructor; [exact N|]. apply Forall_app. split; [apply Forall_filter2, K|]. repeat constructor; [discriminate|]. apply Forall_filter2, K.
  - constructor; [exact N|]. apply Forall_app. split; assumption.
Qed.
Lemma norm_new_prefixed e x y : honest e -> prefixed x -> norm_new e x = Ok y -> prefixed y.
Proof.
  intros H P E. destruct x as [s| |n m a k]; try (apply ok_inj in E; subst y; exact P). cbn [norm_new] in E.
  inversion P as [| |? ? ? ? N K]; subst. destruct (is_leaf k); [|apply ok_inj in E; subst y; exact P].
  apply bind_ok in E. destruct E as (t & _ & E). apply ok_inj in E. subst y. destruct t; [|exact P]. constructor; [exact N|].
  constructor; [apply list_node_prefixed, H|constructor].
Qed.
Lemma norm_prefixed e x : honest e -> forall y, prefixed x -> norm e x = Ok y -> prefixed y.
Proof.
  intros H. induction x as [s| |n m a k IH] using xml_ind2; intros y P E; try (apply ok_inj in E; subst y; exact P).
  inversion P as [| |? ? ? ? N K]; subst. cbn [norm] in E. destruct (is_leaf k).
  - apply bind_ok in E. destruct E as (t & _ & E). apply ok_inj in E. subst y. destruct t.
    + constructor; [exact N|]. constructor; [apply list_node_prefixed, H|constructor].
    + apply norm_elem_prefixed; [exact N|exact K|apply new_prefixed; assumption].
  - apply bind_ok in E. destruct E as (k' & Hk & E). apply bind_ok in E. destruct E as (nw & Hn & E). apply ok_inj in E. subst y.
    apply norm_elem_prefixed; [exact N| |].
    + apply each_ok in Hk. clear - IH K Hk. induction Hk as [|x y l l' Hxy Hl IH2]; [constructor|].
      inversion IH as [|? ? I1 I2]; subst. inversion K as [|? ? K1 K2]; subst. constructor; [exact (I1 y K1 Hxy)|exact (IH2 I2 K2)].
    + pose proof (new_prefixed e n a H N) as PN. destruct (existsb is_elem k); [|apply ok_inj in Hn; subst nw; exact PN].
      apply each_ok in Hn. clear - H PN Hn. induction Hn as [|x y l l' Hxy Hl IH2]; [constructor|].
      inversion PN as [|? ? K1 K2]; subst. constructor; [exact (norm_new_prefixed e x y H K1 Hxy)|exact (IH2 K2)].
Qed.
Lemma find_parts pre name kids l x r : find_child pre name kids = Ok (Some (l, x, r)) -> kids = l ++ x :: r.
Proof.
  revert l x r. induction kids as [|y kids IH]; intros l x r H; [discriminate H|]. cbn [find_child] in H. apply bind_ok in H. destruct H as (b & _ & H).
  destruct b; [apply ok_inj in H; injection H as <- <- <-; reflexivity|]. apply bind_ok in H. destruct H as (o & Ho & H).
  destruct o as [[[l' y'] r']|]; apply ok_inj in H; [|discriminate H]. injection H as <- <- <-. cbn [app]. f_equal. exact (IH _ _ _ Ho).
Qed.
Lemma find_total pre name kids : Forall safe kids -> exists o, find_child pre name kids = Ok o.
Proof.
  intros S. pose proof (find_child_filter pre name kids S) as H. destruct (filter (tagb pre name) kids); [eauto|].
  destruct H as (lx & rx & _ & H & _). eauto.
Qed.
Lemma merge_total (k0 : list xml) : Forall prefixed k0 -> exists mv rs, merge k0 = Ok (mv, rs) /\ Forall prefixed mv /\ Forall prefixed rs.
Proof.
  induction k0 as [|x l IH]; intros P; [exists [], []; repeat split; constructor|]. inversion P as [|? ? Px Pt]; subst.
  destruct (IH Pt) as (mv & rs & E & M & R). cbn [merge]. rewrite (is_tag_ok _ _ _ (prefixed_safe _ Px)). cbn [bind]. rewrite E. cbn [bind].
  destruct x as [s| |n m a k].
  - exists mv, (XText s :: rs). repeat split; [exact M|constructor; assumption].
  - exists mv, (XComment :: rs). repeat split; [exact M|constructor; assumption].
  - destruct (tagb (bs "rdf") (bs "Description") (XElem n m a k)).
    + exists (filter is_elem k ++ mv), rs. repeat split; [|exact R]. apply Forall_app. split; [apply Forall_filter2; exact (prefixed_kids _ _ _ _ Px)|exact M].
    + exists mv, (XElem n m a k :: rs). repeat split; [exact M|constructor; assumption].
Qed.
Lemma normalize_total e kids : honest e -> Forall prefixed kids -> exists kids', normalize e kids = Ok kids' /\ Forall prefixed kids'.
Proof.
  intros H P. unfold normalize. destruct (find_total (bs "rdf") (bs "RDF") kids (prefixed_all _ P)) as [o E]. rewrite E. cbn [bind].
  destruct o as [[[l x] r]|]; [|exists kids; split; [reflexivity|exact P]]. apply find_parts in E. rewrite E in P. apply Forall_app in P.
  destruct P as [PL P]. inversion P as [|? ? PX PR]; subst. destruct (norm_total e x PX) as [y Y]. rewrite Y. cbn [bind].
  pose proof (norm_prefixed e x H y PX Y) as PY.
  destruct y as [s| |n m a rk]; try (eexists; split; [reflexivity|]; apply Forall_app; split; [exact PL|constructor; assumption]).
  pose proof (prefixed_kids _ _ _ _ PY) as PK. destruct (find_total (bs "rdf") (bs "Description") rk (prefixed_all _ PK)) as [o E2]. rewrite E2. cbn [bind].
  destruct o as [[[l2 x2] r2]|]; [|eexists; split; [reflexivity|]; apply Forall_app; split; [exact PL|constructor; assumption]].
  apply find_parts in E2. rewrite E2 in PK. apply Forall_app in PK. destruct PK as [PL2 PK]. inversion PK as [|? ? PX2 PR2]; subst.
  destruct x2 as [s| |dn dm da dk]; try (eexists; split; [reflexivity|]; apply Forall_app; split; [exact PL|constructor; assumption]).
  destruct (merge_total r2 PR2) as (mv & rs & EM & PM & PS). rewrite EM. cbn [bind]. eexists. split; [reflexivity|].
  inversion PY as [| |? ? ? ? NY _]; subst. inversion PX2 as [| |? ? ? ? ND PD]; subst.
  apply Forall_app. split; [exact PL|]. constructor; [|exact PR]. constructor; [exact NY|]. apply Forall_app. split; [exact PL2|].
  constructor; [|exact PS]. constructor; [exact ND|]. apply Forall_app. split; assumption.
Qed.
Lemma create_total e p : honest e -> prefixed p -> exists q, create e (Some p) = Ok q /\ match q with Some q => prefixed q | None => True end.
Proof.
  intros H P. destruct p as [s| |n m a k]; try (exists None; split; [reflexivity|exact Logic.I]). unfold create.
  destruct (beq m (bs "xmpmeta")); [|exists None; split; [reflexivity|exact Logic.I]]. inversion P as [| |? ? ? ? N K]; subst.
  destruct (normalize_total e k H K) as (k' & -> & K'). eexists. split; [reflexivity|]. constructor; assumption.
Qed.
Lemma kids_prefixed x : prefixed x -> Forall prefixed (kids_of x).
Proof. intros [s| |n m a k _ K]; [constructor|constructor|exact K]. Qed.
Lemma description_total q : prefixed q -> exists o, description q = Ok o /\ match o with Some K => Forall safe K | None => True end.
Proof.
  intros P. unfold description. destruct (find_total (bs "rdf") (bs "RDF") _ (prefixed_all _ (kids_prefixed _ P))) as [o E]. rewrite E. cbn [bind].
  destruct o as [[[l x] r]|]; [|exists None; split; [reflexivity|exact Logic.I]]. apply find_parts in E. pose proof (kids_prefixed _ P) as PK.
  rewrite E in PK. apply Forall_app in PK. destruct PK as [_ PK]. apply Forall_inv in PK.
  destruct (find_total (bs "rdf") (bs "Description") _ (prefixed_all _ (kids_prefixed _ PK))) as [o2 E2]. rewrite E2. cbn [bind].
  destruct o2 as [[[l2 x2] r2]|]; [|exists None; split; [reflexivity|exact Logic.I]]. apply find_parts in E2. pose proof (kids_prefixed _ PK) as PK2.
  rewrite E2 in PK2. apply Forall_app in PK2. destruct PK2 as [_ PK2]. apply Forall_inv in PK2. eexists. split; [reflexivity|].
  apply prefixed_all, kids_prefixed, PK2.
Qed.
Lemma get_safe e p : honest e -> prefixed p -> (exists q m, get_meta e (Some p) = Ok (q, m)) \/ get_meta e (Some p) = Err EInvalidDataType.
Proof.
  intros H P. destruct (create_total e p H P) as (q & C & PQ). destruct q as [q|].
  - destruct (description_total q PQ) as (o & D & S). destruct o as [K|].
    + rewrite (get_meta_eq e p q K C D S).
      unfold w3c_date. destruct (the_text KCreated K) as [s|]; [destruct (try_parse_w3c s)|]; cbn [bind]; try (right; reflexivity);
        (destruct (the_text KModified K) as [t|]; [destruct (try_parse_w3c t)|]; cbn [bind]; try (right; reflexivity); left; eauto).
    + left. unfold get_meta. rewrite C. cbn [bind packet_meta]. rewrite D. cbn [bind]. eauto.
  - left. unfold get_meta. rewrite C. cbn [bind packet_meta]. eauto.
Qed.
