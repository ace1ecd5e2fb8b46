(** C136, C137: the metadata of documents *)
From Coq Require Import String Lia.
From Verif Require Import Base TokModel OwnModel TextModel DateModel DatePropLemmas ChainProofs XmpModel XmpSpec XmpProofs XmpPropLemmas XmpUpdateProofs MetaModel MetaSpec MetaProofs.
From Verif Require DictProofs.
Local Open Scope Z_scope.

(** C136: in a document as it is loaded, any calls that set dates and the PDF/A level, synchronise, save and read the metadata answer what the
    Info dictionary and the packet said and what was set since. [loaded] and [has_meta] are in MetaSpec. Missing: the texts (refuted below), packets
    with properties that stand twice, texts with ampersands, dates after the year 9999. *)
Theorem C136_history_partial : forall e x q pm a l, (forall s, Forall (fun y => is_elem y = false) (e_other e s)) -> loaded x -> get_meta e (stream x) = Ok (q, pm) ->
  m_creator pm = None -> has_meta x pm a -> writable a -> Forall call_ok l ->
  exists x', play e l x = Ok (x', replies l a).
Proof.
  intros e x q pm a l H L G C M W F. pose proof (loaded_ready e H x q pm a L G C M W) as R. destruct (play_ready e H l x a R F) as (x' & P & _).
  exists x'. exact P.
Qed.
Print Assumptions C136_history_partial.
(** What was set is in the file when the document is saved: the document that is loaded from it answers the same. Not if the modification date is
    already the one of the saving, see C136_second_refuted *)
Theorem C136_saved_partial : forall e x q pm a l l' now, (forall s, Forall (fun y => is_elem y = false) (e_other e s)) -> loaded x ->
  get_meta e (stream x) = Ok (q, pm) -> m_creator pm = None -> has_meta x pm a -> writable a -> Forall call_ok l -> Forall call_ok l' ->
  date_ok (Some now) -> m_modified (after l a) <> Some now ->
  exists x1 x2 x3, play e l x = Ok (x1, replies l a) /\ before_write e now x1 = Ok x2 /\
    play e l' (reopened x2) = Ok (x3, replies l' (meant (Save now) (after l a))).
Proof.
  intros e x q pm a l l' now H L G C M W F F' O N. pose proof (loaded_ready e H x q pm a L G C M W) as R. destruct (play_ready e H l x a R F) as (x1 & P & R1).
  destruct (save_ready e H now x1 _ R1 O N) as (x2 & S & R2). destruct (play_ready e H l' _ _ R2 F') as (x3 & P3 & _).
  exists x1, x2, x3. repeat split; assumption.
Qed.
Print Assumptions C136_saved_partial.

(** False: the setters of the title, the subject, the keywords, the creator and the producer do nothing when they are given anything else than what is
    there: nothing is set, and nothing is removed *)
Theorem C136_text_refuted : forall e x q pm a k v b l, (forall s, Forall (fun y => is_elem y = false) (e_other e s)) -> loaded x ->
  get_meta e (stream x) = Ok (q, pm) -> m_creator pm = None -> has_meta x pm a -> writable a -> Forall call_ok l ->
  In (k, reply (GetText k) a) [(KTitle, AText (m_title a)); (KSubject, AText (m_subject a)); (KKeywords, AText (m_keywords a)); (KCreator, AText (m_creator a));
    (KProducer, AText (m_producer a))] -> reply (GetText k) a <> AText v ->
  exists x' x2, set_text e k v b x = Ok x' /\ info x' = info x /\ stream x' = stream x /\ play e l x' = Ok (x2, replies l a).
Proof.
  intros e x q pm a k v b l H L G C M W F K V. pose proof (loaded_ready e H x q pm a L G C M W) as R.
  assert (X : textual k = true /\ k <> KAuthor /\ field k a <> v).
  { repeat (destruct K as [K|K]; [injection K as <-; repeat split; [discriminate|]; cbn [field]; intros E; apply V; cbn [reply]; congruence|]). destruct K. }
  destruct X as (T & NA & NV). destruct (set_text_nothing e k v b x a R T NA NV) as (x' & S & E & R').
  destruct (play_ready e H l x' a R' F) as (x2 & P & _). exists x', x2. split; [exact S|].
  assert (Y : info x' = info x /\ stream x' = stream x).
  { unfold ensure in E. destruct (init x); [apply ok_inj in E; subst; split; reflexivity|]. apply bind_ok in E. destruct E as (c & _ & E).
    apply bind_ok in E. destruct E as ((p & m) & _ & E). apply ok_inj in E. subst x'. destruct p; split; reflexivity. }
  destruct Y. repeat split; assumption.
Qed.
Print Assumptions C136_text_refuted.
(** False: SetAuthor with a text does nothing to a document that is loaded, and without a text it removes the author from the dictionary only *)
Theorem C136_author_refuted : forall e x v b, loaded x -> set_text e KAuthor (Some v) b x = Ok x.
Proof. intros e x v b (_ & C & _). unfold set_text. cbn [bind]. rewrite C. reflexivity. Qed.
Print Assumptions C136_author_refuted.
(** False: EnsureXMPMetadata in a document that is loaded removes its dates *)
Theorem C136_ensure_refuted : forall e x, loaded x -> exists x', ensure_xmp e x = Ok x' /\ forall v, ~ tells x' (bs "CreationDate") v /\ ~ tells x' (bs "ModDate") v.
Proof.
  intros e x (I0 & C & S & _). unfold ensure_xmp. rewrite C.
  destruct (match packet x with Some p => Ok p | None => update e None no_meta end) as [p| | |] eqn:E.
  2-4: exfalso; destruct (packet x); [discriminate E|];
    assert (W : writable no_meta) by (repeat split; exact Logic.I);
    destruct (update_new e no_meta W) as (k' & p' & U & _); rewrite U in E; discriminate E.
  cbn [bind]. eexists. split; [reflexivity|]. intros v.
  assert (SD : DictProofs.sorted (the_info x)) by (unfold the_info; destruct (info x); [exact S|exact DictProofs.sorted_nil]).
  cbn [no_meta m_modified m_created option_map].
  set (d1 := info_put (bs "CreationDate") None (the_info x)). assert (S1 : DictProofs.sorted d1) by (apply put_sorted, SD).
  assert (S2 : DictProofs.sorted (info_put (bs "ModDate") None d1)) by (apply put_sorted, S1).
  split; intros T; apply tells_iff in T; cbn [info objects] in *; try exact S2; rewrite put_text in T by exact S1; cbn in T.
  - change (info_text (objects x) d1 (bs "CreationDate") = Some v) in T. unfold d1 in T. rewrite put_text in T by exact SD. discriminate T.
  - discriminate T.
Qed.
Print Assumptions C136_ensure_refuted.
(** False: a date of the dictionary that is not read makes all calls fail, saving included *)
Theorem C136_bad_date_refuted : forall e x s now b, loaded x -> tells x (bs "ModDate") s -> try_parse s = None -> (forall v, ~ tells x (bs "CreationDate") v) ->
  (forall k, get_text e k x = Err EInvalidDataType) /\ get_level e x = Err EInvalidDataType /\ before_write e now x = Err EInvalidDataType /\
  set_date e KModified (Some now) b x = Err EInvalidDataType.
Proof.
  intros e x s now b (I0 & C & S & _) T P NC.
  assert (E : ensure e x = Err EInvalidDataType).
  { pose proof (proj1 (tells_iff x _ _ S) T) as T'. unfold ensure. rewrite I0. pose proof (fun v => proj2 (tells_iff x (bs "CreationDate") v S)) as NC'.
    destruct (info x) as [d|]; [|destruct T']. unfold read_info, info_date. destruct (info_text (objects x) d (bs "CreationDate")) as [v|] eqn:EC.
    - destruct (NC v). apply NC'. reflexivity.
    - cbn [bind]. rewrite T', P. reflexivity. }
  unfold get_text, get_level, before_write, set_date. rewrite E. repeat split.
Qed.
Print Assumptions C136_bad_date_refuted.
Definition no_other : env := mk_env (fun _ => []).
Definition empty_doc : doc := mk_doc (fun _ => None) None None no_meta false false None.
Definition kept (r : res doc) : doc := match r with Ok x => x | _ => empty_doc end.
Definition doc_of {A} (r : res (doc * A)) : doc := match r with Ok (x, _) => x | _ => empty_doc end.
(** False: what was set without synchronising is lost by a saving in the second of the modification date that was set *)
Theorem C136_second_refuted : exists now x1 x2 x3, play no_other [SetLevel L2B false; SetModified (Some now) false; GetLevel] empty_doc =
    Ok (x1, [NoAnswer; NoAnswer; ALevel L2B]) /\ before_write no_other now x1 = Ok x2 /\ play no_other [GetLevel] (reopened x2) = Ok (x3, [ALevel LUnknown]).
Proof.
  pose (now := mk_date 1577934245 (Some 0)).
  pose (x1 := doc_of (play no_other [SetLevel L2B false; SetModified (Some now) false; GetLevel] empty_doc)).
  pose (x2 := kept (before_write no_other now x1)). pose (x3 := doc_of (play no_other [GetLevel] (reopened x2))).
  exists now, x1, x2, x3. split; [vm_compute; reflexivity|]. split; vm_compute; reflexivity.
Qed.
Print Assumptions C136_second_refuted.

(** Trapped: the three values are set and read, others are unknown, and no other entry is changed *)
Theorem C136_trapped : forall x v, loaded x ->
  get_trapped (set_trapped v x) = match v with Some s => if beq s (bs "True") || beq s (bs "False") then s else bs "Unknown" | None => bs "Unknown" end /\
  forall k w, k <> bs "Trapped" -> tells (set_trapped v x) k w <-> tells x k w.
Proof.
  intros x v (_ & _ & S & _).
  assert (SD : DictProofs.sorted (the_info x)) by (unfold the_info; destruct (info x); [exact S|exact DictProofs.sorted_nil]).
  assert (G : forall q, dict_get q (put_trapped v (the_info x)) = if beq q (bs "Trapped")
    then option_map (fun s => OName (if beq s (bs "True") || beq s (bs "False") then s else bs "Unknown")) v else dict_get q (the_info x)).
  { intros q. destruct v as [s|]; cbn [put_trapped option_map]; [apply (DictProofs.dict_get_add _ _ q _ SD)|].
    unfold remove_key, has_key. destruct (dict_get (bs "Trapped") (the_info x)) eqn:G; cbn [snd]; [apply erase_get, DictProofs.sorted_nodup, SD|].
    destruct (beq q (bs "Trapped")) eqn:Q; [|reflexivity]. apply beq_eq in Q. subst q. exact G. }
  assert (ST : DictProofs.sorted (put_trapped v (the_info x))).
  { destruct v as [s|]; cbn [put_trapped]; [apply DictProofs.dict_add_sorted, SD|]. unfold remove_key. destruct (has_key _ _); [apply erase_sorted, SD|exact SD]. }
  split.
  - unfold get_trapped, trapped_raw, set_trapped, dict_find, get_key. cbn [info objects]. rewrite G, beq_refl. destruct v as [s|]; cbn [option_map]; [|reflexivity].
    destruct (beq s (bs "True") || beq s (bs "False")) eqn:E; [rewrite E; reflexivity|reflexivity].
  - intros k w K. assert (B : beq k (bs "Trapped") = false) by (destruct (beq k (bs "Trapped")) eqn:B; [apply beq_eq in B; contradiction|reflexivity]).
    rewrite tells_iff by exact ST. rewrite tells_iff by exact S. cbn [set_trapped info objects]. unfold info_text, dict_find, get_key. rewrite G, B.
    unfold the_info. destruct (info x); [reflexivity|]. cbn [dict_get]. split; [discriminate|intros []].
Qed.
Print Assumptions C136_trapped.

(** A document with an Info dictionary (one value through a reference) and a packet *)
Definition the_desc : xml := XElem rdf_ns (bs "Description") [(Some (bs "rdf"), bs "about", []); (Some (bs "pdf"), bs "Producer", bs "P"); (Some (bs "pdf"), bs "Keywords", bs "k")]
  [XElem (Ns (Some (bs "ex"))) (bs "own") [] [XText (bs "x")]].
Definition the_packet : xml := XElem (Ns (Some (bs "x"))) (bs "xmpmeta") [] [XElem rdf_ns (bs "RDF") [] [the_desc]].
Definition full_doc : doc := mk_doc (fun r => if (fst r =? 7) then Some (OStr false (bs "T")) else None)
  (Some [(bs "Creator", OStr false (bs "C")); (bs "ModDate", OStr false (bs "D:20200102030405Z")); (bs "Producer", OStr true (bs "Q")); (bs "Title", ORef 7 0)])
  (Some the_packet) no_meta false false None.
Definition at2020 : date := mk_date 1577934245 (Some 0).
Definition later : date := mk_date 1609556645 (Some (-90)).
Example C136_case : exists x1 x2 x3,
  play no_other [GetText KTitle; GetText KProducer; GetText KKeywords; GetModified; SetCreated (Some at2020) true; SetLevel L3A false; GetText KCreator; GetLevel; GetCreated] full_doc =
    Ok (x1, [AText (Some (bs "T")); AText (Some (bs "Q")); AText (Some (bs "k")); ADate (Some at2020); NoAnswer; NoAnswer; AText (Some (bs "C")); ALevel L3A;
             ADate (Some at2020)]) /\
  before_write no_other later x1 = Ok x2 /\
  play no_other [GetLevel; GetModified; GetCreated; GetText KKeywords; GetText KProducer; GetText KCreator] (reopened x2) =
    Ok (x3, [ALevel L3A; ADate (Some later); ADate (Some at2020); AText (Some (bs "k")); AText (Some (bs "Q")); AText (Some (bs "C"))]).
Proof.
  pose (x1 := doc_of (play no_other [GetText KTitle; GetText KProducer; GetText KKeywords; GetModified; SetCreated (Some at2020) true; SetLevel L3A false;
    GetText KCreator; GetLevel; GetCreated] full_doc)). pose (x2 := kept (before_write no_other later x1)).
  pose (x3 := doc_of (play no_other [GetLevel; GetModified; GetCreated; GetText KKeywords; GetText KProducer; GetText KCreator] (reopened x2))).
  exists x1, x2, x3. split; [vm_compute; reflexivity|]. split; vm_compute; reflexivity.
Qed.
(** It satisfies the conditions of the theorems *)
Definition full_meta : meta := mk_meta (Some (bs "T")) None None (Some (bs "k")) (Some (bs "C")) (Some (bs "Q")) None (Some at2020) LUnknown.
Definition packet_part : meta := mk_meta None None None (Some (bs "k")) None (Some (bs "P")) None None LUnknown.
Ltac says_tac := eexists; split; [reflexivity|]; eexists; eexists; split; [cbn; tauto|]; first [left; reflexivity|right; eexists; eexists; split; reflexivity].
Ltac silent_tac := intros ? (? & HI & ? & ? & HD & _); injection HI as <-; cbn in HD; repeat destruct HD as [HD|HD]; try discriminate HD; contradiction.
Example C136_meta_case : (exists q, get_meta no_other (stream full_doc) = Ok (q, packet_part)) /\ has_meta full_doc packet_part full_meta /\ writable full_meta.
Proof.
  split; [eexists; vm_compute; reflexivity|]. split.
  - unfold has_meta. repeat apply conj.
    + left. exists (bs "T"). split; [says_tac|reflexivity].
    + right. split; [silent_tac|reflexivity].
    + right. split; [silent_tac|reflexivity].
    + right. split; [silent_tac|reflexivity].
    + left. exists (bs "C"). split; [says_tac|reflexivity].
    + left. exists (bs "Q"). split; [says_tac|reflexivity].
    + right. split; [silent_tac|reflexivity].
    + left. exists (bs "D:20200102030405Z"), at2020. split; [says_tac|]. split; vm_compute; reflexivity.
    + reflexivity.
  - repeat split; cbn [full_meta m_title m_author m_subject m_keywords m_creator m_producer m_created m_modified plain_opt date_ok at2020 d_secs d_off];
    try (apply plain_small; reflexivity); try exact Logic.I; try lia; try (intros H; vm_compute in H; intuition discriminate).
Qed.

(** C137: keywords. Nothing of the text of the keywords is lost when it is split *)
Lemma split_concat s : forall tok, concat (split_keywords tok s) = tok ++ s.
Proof.
  assert (P : forall tok r, concat (push_token tok r) = tok ++ concat r) by (intros [|c tok] r; reflexivity).
  induction s as [|c s IH]; intros tok; cbn [split_keywords]; [rewrite P; cbn [concat]; reflexivity|].
  destruct ((c =? 13) || (c =? 10)); [rewrite P, IH|rewrite IH]; rewrite <- app_assoc; reflexivity.
Qed.
Theorem C137_whole : forall s l, keywords_list s = Ok l -> concat l = s.
Proof. intros s l H. unfold keywords_list in H. apply bind_ok in H. destruct H as (u & _ & H). apply ok_inj in H. subst l. apply split_concat. Qed.
Print Assumptions C137_whole.
(** One keyword is read back. Missing: more than one, refuted below *)
Theorem C137_one_partial : forall k u, utf8_points k = Ok u -> k <> [] -> ~ In 13 k -> ~ In 10 k -> keywords_list (keywords_text [k]) = Ok [k].
Proof.
  intros k u U NE N1 N2. unfold keywords_list. cbn [keywords_text flat_map]. rewrite app_nil_r, U. cbn [bind]. f_equal.
  assert (G : forall s tok, ~ In 13 s -> ~ In 10 s -> tok ++ s <> [] -> split_keywords tok s = [tok ++ s]).
  { induction s as [|c s IH]; intros tok A B E; cbn [split_keywords].
    - rewrite app_nil_r in *. destruct tok; [destruct (E eq_refl)|reflexivity].
    - assert (C1 : c =? 13 = false) by (apply Z.eqb_neq; intros ->; apply A; left; reflexivity).
      assert (C2 : c =? 10 = false) by (apply Z.eqb_neq; intros ->; apply B; left; reflexivity). rewrite C1, C2. cbn [orb].
      rewrite IH; [rewrite <- app_assoc; reflexivity|intros H; apply A; right; exact H|intros H; apply B; right; exact H|rewrite <- app_assoc; exact E]. }
  exact (G k [] N1 N2 NE).
Qed.
Print Assumptions C137_one_partial.
(** False: two keywords or more are never read back as the keywords they are *)
Theorem C137_list_refuted : forall k k' l, keywords_list (keywords_text (k :: k' :: l)) <> Ok (k :: k' :: l).
Proof.
  intros k k' l H. apply C137_whole in H. apply (f_equal (@length Z)) in H. cbn [keywords_text] in H. cbn [concat] in H. rewrite !app_length in H.
  assert (G : forall l : list (list Z), (length (concat l) <= length (flat_map (fun k : list Z => [13%Z; 10%Z] ++ k) l))%nat).
  { clear. intros l. induction l as [|x t IH]; [apply le_n|]. cbn [concat flat_map]. rewrite !app_length. cbn [length]. lia. }
  cbn [flat_map] in H. rewrite !app_length in H. cbn [length] in H. specialize (G l). lia.
Qed.
Print Assumptions C137_list_refuted.
Example C137_case : keywords_list (keywords_text [bs "red"; bs "green"]) = Ok [bs "red" ++ [13]; [10]; bs "green"] /\
  keywords_list (keywords_text [bs "red"]) = Ok [bs "red"] /\ keywords_list [255] <> Ok [[255]].
Proof. split; [reflexivity|]. split; [reflexivity|]. discriminate. Qed.
