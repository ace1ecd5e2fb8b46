(** C134, C135: XMP packets *)
From Coq Require Import String Lia.
From Verif Require Import Base TokModel TextModel DateModel ChainProofs XmpModel XmpSpec XmpProofs XmpPropLemmas XmpUpdateProofs.
Local Open Scope Z_scope.

(** C134: what a packet says is read, in whichever description it stands, as an attribute or as an element; what it does not say is not read.
    [packet_says] and [packet_lists] are in XmpSpec. Missing: properties that a packet has twice, and attributes with ampersands. *)
Theorem C134_read_partial : forall e p q m v, get_meta e (Some p) = Ok (q, m) ->
  (packet_says (bs "pdf") (bs "Keywords") v p -> m_keywords m = Some v) /\ (packet_says (bs "pdf") (bs "Producer") v p -> m_producer m = Some v) /\
  (packet_lists (bs "dc") (bs "title") v p -> m_title m = Some v) /\ (packet_lists (bs "dc") (bs "creator") v p -> m_author m = Some v) /\
  (packet_lists (bs "dc") (bs "description") v p -> m_subject m = Some v) /\
  (packet_says (bs "xmp") (bs "CreateDate") v p -> exists d, m_created m = Some d /\ try_parse_w3c v = Some d) /\
  (packet_says (bs "xmp") (bs "ModifyDate") v p -> exists d, m_modified m = Some d /\ try_parse_w3c v = Some d).
Proof.
  intros e p q m v G. repeat split; intros H.
  - destruct (read_says e p m q KKeywords v G H) as (K & T & _ & M & _). congruence.
  - destruct (read_says e p m q KProducer v G H) as (K & T & _ & _ & _ & M & _). congruence.
  - destruct (read_lists e p m q KTitle v G H) as (K & T & M & _). congruence.
  - destruct (read_lists e p m q KAuthor v G H) as (K & T & _ & M & _). congruence.
  - destruct (read_lists e p m q KSubject v G H) as (K & T & _ & _ & M). congruence.
  - destruct (read_says e p m q KCreated v G H) as (K & T & _ & _ & _ & _ & M & _). rewrite T in M. cbn [w3c_date] in M.
    destruct (try_parse_w3c v) as [d|]; [|discriminate M]. apply ok_inj in M. exists d. split; [symmetry; exact M|reflexivity].
  - destruct (read_says e p m q KModified v G H) as (K & T & _ & _ & _ & _ & _ & M). rewrite T in M. cbn [w3c_date] in M.
    destruct (try_parse_w3c v) as [d|]; [|discriminate M]. apply ok_inj in M. exists d. split; [symmetry; exact M|reflexivity].
Qed.
Print Assumptions C134_read_partial.

Theorem C134_silent : forall e p q m, get_meta e (Some p) = Ok (q, m) ->
  (packet_silent (bs "pdf") (bs "Keywords") p -> m_keywords m = None) /\ (packet_silent (bs "pdf") (bs "Producer") p -> m_producer m = None) /\
  (packet_silent (bs "dc") (bs "title") p -> m_title m = None) /\ (packet_silent (bs "dc") (bs "creator") p -> m_author m = None) /\
  (packet_silent (bs "dc") (bs "description") p -> m_subject m = None) /\ (packet_silent (bs "xmp") (bs "CreatorTool") p -> m_creator m = None) /\
  (packet_silent (bs "xmp") (bs "CreateDate") p -> m_created m = None) /\ (packet_silent (bs "xmp") (bs "ModifyDate") p -> m_modified m = None) /\
  (packet_silent (bs "pdfaid") (bs "part") p \/ packet_silent (bs "pdfaid") (bs "conformance") p -> m_level m = LUnknown).
Proof.
  intros e p q m G. repeat split; intros H.
  - destruct (read_silent e p m q KKeywords G H) as (K & T & I0 & M1 & M2 & M3 & M4 & _). congruence.
  - destruct (read_silent e p m q KProducer G H) as (K & T & I0 & M1 & M2 & M3 & M4 & M5 & M6 & _). congruence.
  - destruct (read_silent e p m q KTitle G H) as (K & T & I0 & M1 & _). congruence.
  - destruct (read_silent e p m q KAuthor G H) as (K & T & I0 & M1 & M2 & _). congruence.
  - destruct (read_silent e p m q KSubject G H) as (K & T & I0 & M1 & M2 & M3 & _). congruence.
  - destruct (read_silent e p m q KCreator G H) as (K & T & I0 & M1 & M2 & M3 & M4 & M5 & _). congruence.
  - destruct (read_silent e p m q KCreated G H) as (K & T & I0 & M1 & M2 & M3 & M4 & M5 & M6 & M7 & _). rewrite T in M7. apply ok_inj in M7. symmetry. exact M7.
  - destruct (read_silent e p m q KModified G H) as (K & T & I0 & M1 & M2 & M3 & M4 & M5 & M6 & M7 & M8 & _). rewrite T in M8. apply ok_inj in M8. symmetry. exact M8.
  - destruct H as [H|H].
    + destruct (read_silent e p m q KPart G H) as (K & T & I0 & M1 & M2 & M3 & M4 & M5 & M6 & M7 & M8 & M9). rewrite M9. unfold the_level. rewrite T. reflexivity.
    + destruct (read_silent e p m q KConformance G H) as (K & T & I0 & M1 & M2 & M3 & M4 & M5 & M6 & M7 & M8 & M9). rewrite M9. unfold the_level. rewrite T.
      destruct (the_text KPart K); reflexivity.
Qed.
Print Assumptions C134_silent.

(** The PDF/A level is the one of the part and the conformance *)
Theorem C134_level : forall e p q m l a b, get_meta e (Some p) = Ok (q, m) -> pdfa l = Some (a, b) ->
  packet_says (bs "pdfaid") (bs "part") a p -> packet_says (bs "pdfaid") (bs "conformance") b p -> m_level m = l.
Proof. intros e p q m l a b G L HA HB. exact (read_level e p m q l a b G L HA HB). Qed.
Print Assumptions C134_level.

(** No packet without a default namespace is read out of bounds or for ever: metadata are read, or an error is given. libxml2 makes no
    elements of the contents of attributes. *)
Theorem C134_safe_partial : forall e p, (forall s, Forall (fun x => is_elem x = false) (e_other e s)) -> prefixed p ->
  (exists q m, get_meta e (Some p) = Ok (q, m)) \/ get_meta e (Some p) = Err EInvalidDataType.
Proof. exact get_safe. Qed.
Print Assumptions C134_safe_partial.

(** False: xmp:CreatorTool is a text in XMP, and is read as a list: a packet that says it has no creator for the library *)
Theorem C134_creator_refuted : forall e p q m v, get_meta e (Some p) = Ok (q, m) -> packet_says (bs "xmp") (bs "CreatorTool") v p -> m_creator m = None.
Proof. intros e p q m v G H. destruct (read_says e p m q KCreator v G H) as (K & T & I0 & _ & M & _). congruence. Qed.
Print Assumptions C134_creator_refuted.

(** False: a date that is not read, as one with a space or an empty one, hides all other metadata *)
Theorem C134_date_refuted : forall e p v, packet_says (bs "xmp") (bs "CreateDate") v p -> try_parse_w3c v = None -> get_meta e (Some p) = Err EInvalidDataType.
Proof.
  intros e p v H N. pose proof H as (ds & HD & O1). pose proof (one_described _ _ _ _ (says_described _ _ _) O1) as D.
  destruct (packet_becomes e p ds HD D) as (q & Ks & C & DD & _ & S). rewrite (get_meta_eq e p q _ C DD S).
  destruct (says_found e p q _ KCreated v C DD H) as [T _]. rewrite T. cbn [w3c_date]. rewrite N. reflexivity.
Qed.
Print Assumptions C134_date_refuted.

(** False: fractions of a second, which XMP allows, make the time zone of a date be dropped: these two dates are an hour apart; and a date that is
    only a year is read as 30 November of the year before *)
Theorem C134_fraction_refuted : try_parse_w3c (bs "2020-01-02T03:04:05.5+01:00") = Some (mk_date 1577934245 None) /\
  try_parse_w3c (bs "2020-01-02T03:04:05+01:00") = Some (mk_date (1577934245 - 3600) (Some 60)) /\
  try_parse_w3c (bs "2020") = try_parse_w3c (bs "2019-11-30").
Proof. vm_compute. repeat split. Qed.
Print Assumptions C134_fraction_refuted.

Definition no_other : env := mk_env (fun _ => []).
Definition packet (n : xns) (ds : list xml) : xml := XElem (Ns (Some (bs "x"))) (bs "xmpmeta") [] [XElem n (bs "RDF") [] ds].
Definition desc (attrs : list attr) (kids : list xml) : xml := XElem rdf_ns (bs "Description") ((Some (bs "rdf"), bs "about", []) :: attrs) kids.
Example C134_date_case : try_parse_w3c (bs "2020-01-02 03:04") = None /\
  get_meta no_other (Some (packet rdf_ns [desc [(Some (bs "xmp"), bs "CreateDate", bs "2020-01-02 03:04"); (Some (bs "pdf"), bs "Producer", bs "P")] []])) =
  Err EInvalidDataType.
Proof. split; reflexivity. Qed.
(** False: an RDF element in the default namespace makes the library read a null pointer *)
Theorem C134_default_refuted : exists p, get_meta no_other (Some p) = UB.
Proof. exists (packet (Ns None) []). reflexivity. Qed.
Print Assumptions C134_default_refuted.
(** False: the text a&lt;b of an attribute is read as a<b; the text with any other ampersand is given to the entities of libxml2 *)
Theorem C134_entity_refuted : exists p q m, get_meta no_other (Some p) = Ok (q, m) /\ m_keywords m = Some (bs "a<b") /\
  p = packet rdf_ns [desc [(Some (bs "pdf"), bs "Keywords", bs "a&lt;b")] []].
Proof. eexists. eexists. eexists. split; [|split; [|reflexivity]]; [reflexivity|reflexivity]. Qed.
Print Assumptions C134_entity_refuted.

Definition li (s : list Z) : xml := XElem rdf_ns (bs "li") [] [XText s].
Definition sample : xml := packet rdf_ns
  [desc [(Some (bs "pdf"), bs "Keywords", bs "k1 k2"); (Some (bs "pdfaid"), bs "part", bs "2")]
     [XElem (Ns (Some (bs "dc"))) (bs "title") [] [XElem rdf_ns (bs "Alt") [] [li (bs "T"); li (bs "U")]]];
   desc [(Some (bs "xmp"), bs "CreateDate", bs "2020-01-02T03:04:05Z")]
     [XElem (Ns (Some (bs "pdfaid"))) (bs "conformance") [] [XText (bs "B")]; XElem (Ns (Some (bs "ex"))) (bs "own") [] [XText (bs "x")];
      XElem (Ns (Some (bs "dc"))) (bs "date") [] [XText (bs "2020")]]].
Example C134_case : exists q, get_meta no_other (Some sample) =
  Ok (Some q, mk_meta (Some (bs "T")) None None (Some (bs "k1 k2")) None None (Some (mk_date 1577934245 (Some 0))) None L2B).
Proof. eexists. reflexivity. Qed.
(** The packet of the example says its keywords and lists its title *)
Ltac named := match goal with
  | |- ~ attr_named _ _ _ => let H := fresh in intros H; discriminate H
  | |- ~ elem_named _ _ _ => let H := fresh in intros (? & ? & H); discriminate H
  end.
Lemma small_plain s : forallb (fun c => negb (c =? 38) && negb (c =? 0)) s = true -> plain s.
Proof. exact (plain_small s). Qed.
Ltac described_tac := split; [reflexivity|split; [repeat (constructor; [eexists; eexists; eexists; eexists; reflexivity|]); constructor|
  repeat (constructor; [split; [discriminate|apply small_plain; reflexivity]|]); constructor]].
Lemma sample_descs : has_descriptions (match sample with XElem _ _ _ [XElem _ _ _ ds] => ds | _ => [] end) sample.
Proof.
  split; [|split; [discriminate|]].
  - unfold sample, packet, desc, li, rdf_ns. repeat (constructor; try discriminate).
  - exists (Ns (Some (bs "x"))), [], [], []. split; [reflexivity|constructor].
Qed.
Example C134_says_case : packet_says (bs "pdf") (bs "Keywords") (bs "k1 k2") sample.
Proof.
  eexists. split; [exact sample_descs|]. cbn [sample packet]. eexists [], _, [_]. split; [reflexivity|]. split.
  - apply (SaysAttr _ _ _ _ [(Some (bs "rdf"), bs "about", [])] [(Some (bs "pdfaid"), bs "part", bs "2")]
      [XElem (Ns (Some (bs "dc"))) (bs "title") [] [XElem rdf_ns (bs "Alt") [] [li (bs "T"); li (bs "U")]]]).
    + described_tac.
    + repeat (constructor; [named|]). constructor.
    + repeat (constructor; [named|]). constructor.
  - constructor; [|constructor]. eexists. eexists. split; [unfold desc; described_tac|]. split; repeat (constructor; [named|]); constructor.
Qed.
Example C134_lists_case : packet_lists (bs "dc") (bs "title") (bs "T") sample.
Proof.
  eexists. split; [exact sample_descs|]. cbn [sample packet]. eexists [], _, [_]. split; [reflexivity|]. split.
  - apply (Lists _ _ _ _ [(Some (bs "rdf"), bs "about", []); (Some (bs "pdf"), bs "Keywords", bs "k1 k2"); (Some (bs "pdfaid"), bs "part", bs "2")]
      [] [] rdf_ns (bs "Alt") [] [] [li (bs "U")] []); try (constructor; fail).
    + described_tac.
    + repeat (constructor; [named|]). constructor.
  - constructor; [|constructor]. eexists. eexists. split; [unfold desc; described_tac|]. split; repeat (constructor; [named|]); constructor.
Qed.

(** C135: after an update the packet says the new metadata and keeps everything else: the elements of other names stay, in their order, and
    nothing outside the description is changed. Missing: packets that say a property twice, texts with ampersands, and packets whose form is
    not the one that [create] makes (C135_made shows that it makes it). *)
Theorem C135_update_partial : forall e kids p m, normal kids p -> single kids -> writable m -> exists kids' p',
  update e (Some p) m = Ok p' /\ differ kids kids' p p' /\ (exists F, foreigners kids F /\ foreigners kids' F) /\ states m p' /\ normal kids' p' /\ single kids'.
Proof. exact update_normal. Qed.
Print Assumptions C135_update_partial.
(** A document without a packet gets one that says the metadata *)
Theorem C135_new_partial : forall e m, writable m -> exists kids p, update e None m = Ok p /\ foreigners kids [] /\ states m p /\ normal kids p /\ single kids.
Proof. exact update_new. Qed.
Print Assumptions C135_new_partial.
(** A packet that says every property at most once is brought into the form that can be updated *)
Theorem C135_made : forall e p, (forall s, Forall (fun x => is_elem x = false) (e_other e s)) -> clear_packet p ->
  exists q kids, create e (Some p) = Ok (Some q) /\ normal kids q /\ single kids.
Proof. exact clear_normal. Qed.
Print Assumptions C135_made.
(** Metadata that a packet says are read back, except the creator *)
Theorem C135_reload_partial : forall e kids p m, normal kids p -> states m p -> date_ok (m_created m) -> date_ok (m_modified m) ->
  exists q, get_meta e (Some p) =
    Ok (Some q, mk_meta (m_title m) (m_author m) (m_subject m) (m_keywords m) None (m_producer m) (m_created m) (m_modified m) (m_level m)).
Proof. intros e kids p m N S O1 O2. exact (reload e p m (ex_intro _ kids N) S O1 O2). Qed.
Print Assumptions C135_reload_partial.
(** The three together: a packet is read, updated, written and read *)
Theorem C135_cycle_partial : forall e p m, (forall s, Forall (fun x => is_elem x = false) (e_other e s)) -> clear_packet p -> writable m ->
  exists q p' q', create e (Some p) = Ok (Some q) /\ update e (Some q) m = Ok p' /\ get_meta e (Some p') =
    Ok (Some q', mk_meta (m_title m) (m_author m) (m_subject m) (m_keywords m) None (m_producer m) (m_created m) (m_modified m) (m_level m)).
Proof.
  intros e p m H CP W. destruct (clear_normal e p H CP) as (q & kids & C & N & S). destruct (update_normal e kids q m N S W) as (kids' & p' & U & _ & _ & ST & N' & _).
  destruct (reload e p' m (ex_intro _ kids' N') ST) as (q' & G); [apply W|apply W|]. exists q, p', q'. repeat split; assumption.
Qed.
Print Assumptions C135_cycle_partial.

(** False: the creator is not read back, whatever it is *)
Theorem C135_creator_refuted : forall e m c, writable m -> m_creator m = Some c ->
  exists p q m', update e None m = Ok p /\ packet_says (bs "xmp") (bs "CreatorTool") c p /\ get_meta e (Some p) = Ok (q, m') /\ m_creator m' = None.
Proof.
  intros e m c W C. destruct (update_new e m W) as (kids & p & U & _ & S & N & _). destruct (reload e p m (ex_intro _ kids N) S) as (q & G); [apply W|apply W|].
  exists p, (Some q), (kept m). split; [exact U|]. split; [|split; [exact G|reflexivity]]. destruct S as (_ & _ & _ & _ & S & _). rewrite C in S. exact S.
Qed.
Print Assumptions C135_creator_refuted.
(** False: a text with an entity is written as another text *)
Theorem C135_entity_refuted : exists m p q m', update no_other None m = Ok p /\ get_meta no_other (Some p) = Ok (q, m') /\
  m_title m = Some (bs "a &amp; b") /\ m_title m' = Some (bs "a & b").
Proof.
  exists (mk_meta (Some (bs "a &amp; b")) None None None None None None None LUnknown). eexists. eexists. eexists.
  split; [reflexivity|]. split; [reflexivity|]. split; reflexivity.
Qed.
Print Assumptions C135_entity_refuted.
(** False: of a property that a packet has twice, one stays and is read instead of the new one *)
Definition twice : xml := packet rdf_ns [desc [] [XElem (Ns (Some (bs "pdf"))) (bs "Producer") [] [XText (bs "A")]]; desc [(Some (bs "pdf"), bs "Producer", bs "B")] []].
Theorem C135_twice_refuted : exists q p m', create no_other (Some twice) = Ok (Some q) /\
  update no_other (Some q) (mk_meta None None None None None (Some (bs "C")) None None LUnknown) = Ok p /\
  packet_meta (Some p) = Ok m' /\ m_producer m' = Some (bs "B").
Proof. eexists. eexists. eexists. split; [reflexivity|]. split; [reflexivity|]. split; reflexivity. Qed.
Print Assumptions C135_twice_refuted.

Definition new_meta : meta :=
  mk_meta (Some (bs "New")) (Some (bs "A")) None None (Some (bs "tool")) (Some (bs "P")) None (Some (mk_date 1577934245 (Some (-90)))) L4F.
Example C135_case : exists q p, create no_other (Some sample) = Ok (Some q) /\ update no_other (Some q) new_meta = Ok p /\
  writable new_meta /\
  match description p with
  | Ok (Some kids) => map (fun x => match x with XElem _ n _ k => (n, flat_map content k) | _ => ([], []) end) kids =
      [(bs "own", bs "x"); (bs "date", bs "2020"); (bs "title", bs "New"); (bs "creator", bs "A"); (bs "CreatorTool", bs "tool"); (bs "Producer", bs "P");
       (bs "ModifyDate", bs "2020-01-02T01:34:05-01:30"); (bs "part", bs "4"); (bs "conformance", bs "F"); (bs "rev", bs "2020")]
  | _ => False
  end.
Proof.
  eexists. eexists. split; [reflexivity|]. split; [reflexivity|]. split; [|vm_compute; reflexivity].
  repeat split; cbn [new_meta m_title m_author m_subject m_keywords m_creator m_producer m_created m_modified plain_opt date_ok d_secs d_off];
    try (apply small_plain; reflexivity); try exact Logic.I; try lia; try (intros H; vm_compute in H; intuition discriminate).
Qed.
(** A packet that says a property once or not at all *)
Definition small : xml := packet rdf_ns [desc [(Some (bs "pdf"), bs "Producer", bs "P")] [XElem (Ns (Some (bs "ex"))) (bs "own") [] [XText (bs "x")]]].
Example C135_clear_case : clear_packet small.
Proof.
  assert (HD : has_descriptions [desc [(Some (bs "pdf"), bs "Producer", bs "P")] [XElem (Ns (Some (bs "ex"))) (bs "own") [] [XText (bs "x")]]] small).
  { split; [|split; [discriminate|]].
    - unfold small, packet, desc, rdf_ns. repeat (constructor; try discriminate).
    - exists (Ns (Some (bs "x"))), [], [], []. split; [reflexivity|constructor]. }
  intros n Hn. assert (X : n = (bs "pdf", bs "Producer") \/ n <> (bs "pdf", bs "Producer")).
  { destruct n as [a b]. destruct (beq a (bs "pdf") && beq b (bs "Producer")) eqn:E.
    - apply andb_prop in E. destruct E as [E1 E2]. left. f_equal; apply beq_eq; assumption.
    - right. intros E'. injection E' as -> ->. rewrite !beq_refl in E. discriminate E. }
  destruct X as [->|X].
  - right. left. exists (bs "P"). eexists. split; [exact HD|]. apply single_one. 
    apply (SaysAttr _ _ _ _ [(Some (bs "rdf"), bs "about", [])] [] [XElem (Ns (Some (bs "ex"))) (bs "own") [] [XText (bs "x")]]).
    + unfold desc. described_tac.
    + repeat (constructor; [named|]). constructor.
    + repeat (constructor; [named|]). constructor.
  - left. eexists. split; [exact HD|]. constructor; [|constructor]. eexists. eexists. split; [unfold desc; described_tac|].
    repeat (destruct Hn as [<-|Hn]; [split; repeat (constructor; [first [named | (exfalso; apply X; reflexivity)]|]); constructor|]). destruct Hn.
Qed.

Lemma found_elem pre name kids : forall l x r, find_child pre name kids = Ok (Some (l, x, r)) -> exists n m a k, x = XElem n m a k.
Proof.
  induction kids as [|y kids IH]; intros l x r E; cbn [find_child] in E; [discriminate|]. apply bind_ok in E. destruct E as (b & T & E). destruct b.
  - apply ok_inj in E. injection E as _ <- _. destruct y as [s| |n m a k]; cbn [is_tag] in T; [discriminate T|discriminate T|eauto].
  - apply bind_ok in E. destruct E as (o & F & E). destruct o as [[[l' x'] r']|]; [|discriminate]. apply ok_inj in E. injection E as _ <- _. exact (IH _ _ _ F).
Qed.
Lemma update_inside e o m p' x : update e o m = Ok p' -> (forall p, o = Some p -> exists n nm a k, p = XElem n nm a k) -> List.In x (props e m) -> inside x p'.
Proof.
  unfold update. intros U EL I. set (p := match o with Some p => p | None => new_packet end) in *. assert (EP : exists n nm a k, p = XElem n nm a k).
  { unfold p. destruct o as [q|]; [apply EL; reflexivity|unfold new_packet; eauto]. }
  clearbody p. unfold on_description in U. apply bind_ok in U. destruct U as (o1 & F1 & U).
  destruct (match o1 with Some t => t | None => (kids_of p, XElem rdf_ns (bs "RDF") [] [], []) end) as [[l rdf] r] eqn:E1.
  assert (ER : exists n nm a k, rdf = XElem n nm a k). { destruct o1 as [t|]; [subst t; apply (found_elem _ _ _ _ _ _ F1)|]. injection E1 as _ <- _. eauto. }
  apply bind_ok in U. destruct U as (o2 & F2 & U). destruct (match o2 with Some t => t | None => (kids_of rdf, new_desc, []) end) as [[l2 desc] r2] eqn:E2.
  assert (ED : exists n nm a k, desc = XElem n nm a k). { destruct o2 as [t|]; [subst t; apply (found_elem _ _ _ _ _ _ F2)|]. injection E2 as _ <- _. unfold new_desc. eauto. }
  apply bind_ok in U. destruct U as (k & SM & U). apply ok_inj in U. subst p'. unfold set_meta in SM. apply bind_ok in SM. destruct SM as (k0 & _ & SM). apply ok_inj in SM. subst k.
  destruct EP as (n1 & m1 & a1 & c1 & ->). destruct ER as (n2 & m2 & a2 & c2 & ->). destruct ED as (n3 & m3 & a3 & c3 & ->). cbn [put_kids].
  eapply Below; [apply in_elt|]. eapply Below; [apply in_elt|]. eapply Below; [apply in_or_app; right; exact I|constructor].
Qed.
(** Whatever packet is updated: a title and a subject that are set stand in it as alternatives of languages with a default, an author as an ordered list *)
Theorem C135_kinds : forall e o m p', update e o m = Ok p' -> (forall p, o = Some p -> exists n nm a k, p = XElem n nm a k) ->
  (m_title m <> None -> language_alternative (bs "dc") (bs "title") p') /\ (m_subject m <> None -> language_alternative (bs "dc") (bs "description") p') /\
  (m_author m <> None -> ordered (bs "dc") (bs "creator") p').
Proof.
  intros e o m p' U EL. pose proof (fun x => update_inside e o m p' x U EL) as H. repeat split; intros N.
  - destruct (m_title m) as [s|] eqn:E; [|congruence]. eexists. apply (H (prop e KTitle s)). unfold props. rewrite E. left. reflexivity.
  - destruct (m_subject m) as [s|] eqn:E; [|congruence]. eexists. apply (H (prop e KSubject s)). unfold props. rewrite E. apply in_or_app. right. apply in_or_app. right. left. reflexivity.
  - destruct (m_author m) as [s|] eqn:E; [|congruence]. eexists. apply (H (prop e KAuthor s)). unfold props. rewrite E. apply in_or_app. right. left. reflexivity.
Qed.
Print Assumptions C135_kinds.
Example C135_kinds_case : exists p, update no_other (Some small) (mk_meta (Some (bs "T")) (Some (bs "A")) None None None None None None LUnknown) = Ok p /\
  language_alternative (bs "dc") (bs "title") p /\ ~ language_alternative (bs "dc") (bs "creator") new_packet.
Proof.
  eexists. split; [reflexivity|]. split.
  - apply (C135_kinds no_other (Some small) (mk_meta (Some (bs "T")) (Some (bs "A")) None None None None None None LUnknown)); [reflexivity| |discriminate].
    intros p E. injection E as <-. unfold small, packet. eauto.
  - intros (k & H). inversion H as [|? ? ? ? ? I J]; subst; destruct I.
Qed.
