(** The metadata of documents *)
From Coq Require Import String Lia.
From Verif Require Import Base TokModel OwnModel TextModel DateModel DatePropLemmas ChainProofs XmpModel XmpSpec XmpProofs XmpPropLemmas XmpUpdateProofs MetaModel MetaSpec.
From Verif Require DictProofs NameOpProofs.
From Verif Require LinkProofs.
Local Open Scope Z_scope.

(** ** The dictionary *)

Lemma get_in {A} k (v : A) d : NoDup (map fst d) -> dict_get k d = Some v <-> In (k, v) d.
Proof.
  induction d as [|[k' v'] d IH]; intros N; cbn [dict_get]; [split; [discriminate|intros []]|]. inversion N as [|? ? N1 N2]; subst.
  destruct (beq k k') eqn:E.
  - apply beq_eq in E. subst k'. split; [intros H; injection H as ->; left; reflexivity|]. intros [H|H]; [injection H as ->; reflexivity|].
    destruct N1. apply in_map_iff. exists (k, v). split; [reflexivity|exact H].
  - rewrite (IH N2). split; [right; assumption|]. intros [H|H]; [|exact H]. injection H as -> ->. rewrite beq_refl in E. discriminate E.
Qed.
Lemma info_iff look d k v : NoDup (map fst d) -> info_text look d k = Some v <-> info_says look d k v.
Proof.
  intros N. unfold info_text, dict_find, get_key, info_says. split.
  - destruct (dict_get k d) as [o|] eqn:E; [|discriminate]. apply (get_in _ _ _ N) in E.
    destruct o as [|b|z|m q|s|h s|n g|l|dd]; try discriminate; intros H.
    + injection H as ->. exists h, (OStr h v). split; [exact E|left; reflexivity].
    + destruct (look (n, g)) as [[|b|z|m q|s|h s|n' g'|l|dd]|] eqn:L; try discriminate H. injection H as ->.
      exists h, (ORef n g). split; [exact E|]. right. exists n, g. split; [reflexivity|exact L].
  - intros (h & o & I0 & H). apply (get_in _ _ _ N) in I0. rewrite I0. destruct H as [->|(n & g & -> & ->)]; reflexivity.
Qed.
Definition dict0 : Type := list (list Z * obj).
Lemma erase_sorted k (d : dict0) : DictProofs.sorted d -> DictProofs.sorted (erase_key k d).
Proof.
  unfold DictProofs.sorted. induction d as [|[k' v'] d IH]; intros N; cbn [erase_key]; [exact N|]. inversion N as [|? ? N1 N2]; subst.
  destruct (beq k' k); [exact N1|]. constructor; [exact (IH N1)|]. rewrite Forall_forall in *. intros x Hx. apply N2. 
  exact (NameOpProofs.erase_in k x d Hx).
Qed.
Lemma erase_get k (d : dict0) : NoDup (map fst d) -> forall q, dict_get q (erase_key k d) = if beq q k then None else dict_get q d.
Proof.
  induction d as [|[k' v'] d IH]; intros N; cbn [erase_key dict_get]; [intros q; destruct (beq q k); reflexivity|].
  inversion N as [|? ? N1 N2]; subst. specialize (IH N2). intros q. destruct (beq k' k) eqn:E.
  - apply beq_eq in E. subst k'. destruct (beq q k) eqn:Q; [|reflexivity]. apply beq_eq in Q. subst q.
    destruct (dict_get k d) as [v|] eqn:G; [|reflexivity]. apply (get_in _ _ _ N2) in G. destruct N1. apply in_map_iff. exists (k, v). split; [reflexivity|exact G].
  - cbn [dict_get]. destruct (beq q k') eqn:Q; [|apply IH]. destruct (beq q k) eqn:Q2; [|reflexivity].
    apply beq_eq in Q. apply beq_eq in Q2. subst. rewrite beq_refl in E. discriminate E.
Qed.
Lemma put_sorted k v (d : dict0) : DictProofs.sorted d -> DictProofs.sorted (info_put k v d).
Proof.
  intros S. destruct v as [v|]; cbn [info_put]; [apply DictProofs.dict_add_sorted, S|]. unfold remove_key. destruct (has_key k d); [apply erase_sorted, S|exact S].
Qed.
Lemma put_get k v q (d : dict0) : DictProofs.sorted d -> dict_get q (info_put k v d) = if beq q k then option_map (OStr false) v else dict_get q d.
Proof.
  intros S. destruct v as [v|]; cbn [info_put option_map]; [apply (DictProofs.dict_get_add k (OStr false v) q d S)|].
  unfold remove_key, has_key. destruct (dict_get k d) eqn:G; cbn [snd]; [apply erase_get, DictProofs.sorted_nodup, S|].
  destruct (beq q k) eqn:Q; [|reflexivity]. apply beq_eq in Q. subst q. exact G.
Qed.
Lemma put_text look k v q (d : dict0) : DictProofs.sorted d -> info_text look (info_put k v d) q = if beq q k then v else info_text look d q.
Proof.
  intros S. unfold info_text, dict_find, get_key. rewrite (put_get k v q d S). destruct (beq q k); [|reflexivity]. destruct v; reflexivity.
Qed.

(** ** The states *)

Section States.
Variable e : env.
Hypothesis honest_e : honest e.

Definition textual (k : kind) : bool := match k with KTitle | KAuthor | KSubject | KKeywords | KCreator | KProducer => true | _ => false end.
Definition dated (k : kind) : bool := match k with KCreated | KModified => true | _ => false end.
Definition i_text (look : Z * Z -> option obj) (i : option dict0) (k : kind) : option (list Z) :=
  match i with Some d => info_text look d (info_key k) | None => None end.
Definition i_date (look : Z * Z -> option obj) (i : option dict0) (k : kind) : res (option date) :=
  match i with Some d => info_date look d (info_key k) | None => Ok None end.
Definition agree (look : Z * Z -> option obj) (i : option dict0) (a : meta) : Prop :=
  match i with Some d => DictProofs.sorted d | None => True end /\
  (forall k, textual k = true -> i_text look i k = None \/ i_text look i k = field k a) /\ i_text look i KCreator = m_creator a /\
  (forall k, dated k = true -> exists o, i_date look i k = Ok o /\ (o = None \/ o = date_field k a)).
Definition whole (look : Z * Z -> option obj) (i : option dict0) (a : meta) : Prop :=
  (forall k, textual k = true -> i_text look i k = field k a) /\ (forall k, dated k = true -> i_date look i k = Ok (date_field k a)) /\ m_level a = LUnknown.
Definition tidy (p : xml) : Prop := exists kids, normal kids p /\ single kids.
Definition good (x : doc) (a : meta) : Prop :=
  init x = true /\ cache x = a /\ writable a /\ agree (objects x) (info x) a /\
  match packet x with Some p => tidy p | None => create e (stream x) = Ok None /\ whole (objects x) (info x) a end.
Definition ready (x : doc) (a : meta) : Prop := exists x1, ensure e x = Ok x1 /\ good x1 a.
Lemma good_ready x a : good x a -> ready x a.
Proof. intros G. exists x. split; [|exact G]. unfold ensure. rewrite (proj1 G). reflexivity. Qed.

Lemma read_joined look i a : agree look i a -> writable a -> exists c,
  match i with Some d => read_info look d no_meta | None => Ok no_meta end = Ok c /\ join c (kept a) = a.
Proof.
  intros (S & T & C & D) W. destruct i as [d|].
  - destruct (D KCreated eq_refl) as (c & HC & VC). destruct (D KModified eq_refl) as (u & HU & VU). cbn [i_date info_key] in HC, HU.
    unfold read_info. rewrite HC. cbn [bind]. rewrite HU. cbn [bind]. eexists. split; [reflexivity|]. unfold join, kept.
    cbn [m_title m_author m_subject m_keywords m_creator m_producer m_created m_modified m_level field no_meta].
    assert (O : forall k, textual k = true -> or_else (or_else (info_text look d (info_key k)) None) (field k a) = field k a).
    { intros k K. specialize (T k K). cbn [i_text] in T. destruct (info_text look d (info_key k)); [|reflexivity]. destruct T as [T|T]; [discriminate T|exact T]. }
    assert (OC : or_else (or_else (info_text look d (info_key KCreator)) None) None = m_creator a).
    { cbn [i_text] in C. rewrite C. destruct (m_creator a); reflexivity. }
    destruct a as [t au s w cr p d1 d2 l]. cbn [m_title m_author m_subject m_keywords m_creator m_producer m_created m_modified m_level] in *.
    f_equal; try exact (O KTitle eq_refl); try exact (O KAuthor eq_refl); try exact (O KSubject eq_refl); try exact (O KKeywords eq_refl); try exact (O KProducer eq_refl); try exact OC.
    + destruct VC as [->| ->]; [reflexivity|]. cbn [date_field m_created]. destruct d1; reflexivity.
    + destruct VU as [->| ->]; [reflexivity|]. cbn [date_field m_modified]. destruct d2; reflexivity.
  - eexists. split; [reflexivity|]. cbn [i_text] in C. destruct a as [t au s w cr p d1 d2 l]. cbn [m_creator] in C. subst. reflexivity.
Qed.
Lemma reread look i p a s pk : agree look i a -> writable a -> tidy p -> states a p ->
  ready (mk_doc look i (Some p) no_meta false s pk) a.
Proof.
  intros A W (kids & N & SG) ST. destruct (read_joined look i a A W) as (c & RC & J).
  destruct (reload e p a (ex_intro _ kids N) ST) as (q & G); [apply W|apply W|].
  destruct (created_single e p kids honest_e N SG) as (q' & kids' & C & N' & S').
  assert (E : q' = q). { unfold get_meta in G. rewrite C in G. cbn [bind] in G. apply bind_ok in G. destruct G as (mm & _ & G). apply ok_inj in G. injection G as G _. exact G. }
  subst q'. eexists. split.
  - unfold ensure. cbn [init info objects cache stream]. unfold dict0 in RC. rewrite RC. cbn [bind]. rewrite G. cbn [bind]. rewrite J. reflexivity.
  - split; [reflexivity|]. split; [reflexivity|]. split; [exact W|]. split; [exact A|]. cbn [packet]. exists kids'. split; assumption.
Qed.
Lemma reread_whole look i st a s pk : agree look i a -> writable a -> whole look i a -> create e st = Ok None ->
  ready (mk_doc look i st no_meta false s pk) a.
Proof.
  intros A W WH CN. pose proof WH as (T & D & L).
  assert (RC : match i with Some d => read_info look d no_meta | None => Ok no_meta end = Ok a).
  { pose proof (T KTitle eq_refl) as T1. pose proof (T KAuthor eq_refl) as T2. pose proof (T KSubject eq_refl) as T3. pose proof (T KKeywords eq_refl) as T4.
    pose proof (T KCreator eq_refl) as T5. pose proof (T KProducer eq_refl) as T6. pose proof (D KCreated eq_refl) as D1. pose proof (D KModified eq_refl) as D2.
    clear T D. destruct a as [t au s0 w cr p d1 d2 l]. cbn [field date_field m_title m_author m_subject m_keywords m_creator m_producer m_created m_modified m_level] in *.
    destruct i as [d|]; cbn [i_text i_date] in *.
    - unfold read_info. cbn [info_key] in *. rewrite D1, D2. cbn [bind]. cbn [info_key field no_meta m_title m_author m_subject m_keywords m_creator m_producer m_level].
      rewrite T1, T2, T3, T4, T5, T6, L.
      assert (E : forall o : option (list Z), or_else o None = o) by (intros [z|]; reflexivity). rewrite !E. reflexivity.
    - apply ok_inj in D1. apply ok_inj in D2. subst. reflexivity. }
  eexists. split.
  - unfold ensure. cbn [init info objects cache stream]. unfold dict0 in RC. rewrite RC. cbn [bind]. unfold get_meta. rewrite CN. cbn [bind packet_meta]. reflexivity.
  - split; [reflexivity|]. split; [reflexivity|]. split; [exact W|]. split; [exact A|]. cbn [packet stream objects info]. split; assumption.
Qed.
Lemma synced_ready force x a : good x a -> exists x', sync_xmp e force x = Ok x' /\ ready x' a /\ info x' = info x /\ objects x' = objects x /\
  (packet x <> None \/ force = true -> exists p, stream x' = Some p /\ tidy p /\ states a p) /\
  (packet x = None -> force = false -> x' = x).
Proof.
  intros G. pose proof G as (I0 & C & W & A & P). unfold sync_xmp. rewrite C. destruct (packet x) as [p|] eqn:EP.
  - destruct P as (kids & N & SG). destruct (update_normal e kids p a N SG W) as (kids' & p' & U & _ & _ & ST & N' & S'). rewrite U. cbn [bind].
    eexists. split; [destruct force; reflexivity|]. cbn [info objects stream]. split; [apply reread; try assumption; exists kids'; split; assumption|].
    repeat split; [|discriminate]. intros _. exists p'. split; [reflexivity|]. split; [exists kids'; split; assumption|exact ST].
  - destruct force.
    + destruct (update_new e a W) as (kids' & p' & U & _ & ST & N' & S'). rewrite U. cbn [bind]. eexists. split; [reflexivity|]. cbn [info objects stream].
      split; [apply reread; try assumption; exists kids'; split; assumption|]. repeat split; [|intros _ H; discriminate H].
      intros _. exists p'. split; [reflexivity|]. split; [exists kids'; split; assumption|exact ST].
    + exists x. split; [reflexivity|]. split; [apply good_ready, G|]. repeat split. intros [H|H]; [destruct (H eq_refl)|discriminate H].
Qed.

(** Setting a value in the dictionary *)
Lemma date_parse look (d : dict0) k (v : option date) : DictProofs.sorted d -> date_ok v -> info_date look (info_put k (option_map (date_text false) v) d) k = Ok v.
Proof.
  intros S O. unfold info_date. rewrite put_text by exact S. rewrite beq_refl. destruct v as [[s f]|]; [|reflexivity]. cbn [option_map]. destruct O as [O1 O2].
  rewrite (proj1 (round_trip s f O1 O2)). reflexivity.
Qed.
Lemma date_other look (d : dict0) k v q : DictProofs.sorted d -> beq q k = false -> info_date look (info_put k v d) q = info_date look d q.
Proof. intros S B. unfold info_date. rewrite put_text, B by exact S. reflexivity. Qed.
Definition dict_of (i : option dict0) : dict0 := match i with Some d => d | None => [] end.
Lemma dict_of_sorted i : match i with Some d => DictProofs.sorted d | None => True end -> DictProofs.sorted (dict_of i).
Proof. destruct i; [auto|intros _; exact DictProofs.sorted_nil]. Qed.
Lemma dict_of_text look i k : i_text look (Some (dict_of i)) k = i_text look i k.
Proof. destruct i; reflexivity. Qed.
Lemma dict_of_date look i k : i_date look (Some (dict_of i)) k = i_date look i k.
Proof. destruct i; reflexivity. Qed.
Lemma keys_differ k k' : dated k' = true -> k <> k' -> (textual k || dated k) = true -> beq (info_key k) (info_key k') = false.
Proof. destruct k, k'; cbn; intros; try discriminate; try reflexivity; congruence. Qed.
Lemma put_agree look i a k v : agree look i a -> dated k = true -> date_ok v ->
  agree look (Some (info_put (info_key k) (option_map (date_text false) v) (dict_of i))) (put_date k v a).
Proof.
  intros (S & T & C & D) K O. apply dict_of_sorted in S. split; [apply put_sorted, S|].
  assert (X : forall q, textual q = true -> i_text look (Some (info_put (info_key k) (option_map (date_text false) v) (dict_of i))) q = i_text look i q).
  { intros q Q. cbn [i_text]. rewrite put_text by exact S. rewrite keys_differ; [rewrite <- dict_of_text; reflexivity|exact K| |rewrite Q; reflexivity].
    intros ->. destruct k; discriminate. }
  assert (F : forall q, field q (put_date k v a) = field q a) by (intros q; destruct a, k, q; reflexivity).
  split; [|split].
  - intros q Q. rewrite (X q Q), F. exact (T q Q).
  - rewrite (X KCreator eq_refl), C. destruct a, k; reflexivity.
  - intros q Q. cbn [i_date]. destruct (beq (info_key q) (info_key k)) eqn:E.
    + assert (EQ : q = k) by (destruct q, k; try discriminate; reflexivity). subst q. exists v. split; [apply date_parse; assumption|]. right. destruct a, k; try discriminate; reflexivity.
    + rewrite date_other by assumption. destruct (D q Q) as (o & HO & V). rewrite <- dict_of_date in HO. cbn [i_date] in HO. exists o. split; [exact HO|].
      destruct V as [V|V]; [left; exact V|right]. rewrite V. destruct a, q, k; try discriminate; reflexivity.
Qed.
Lemma put_whole look i a k v : match i with Some d => DictProofs.sorted d | None => True end -> whole look i a -> dated k = true -> date_ok v ->
  whole look (Some (info_put (info_key k) (option_map (date_text false) v) (dict_of i))) (put_date k v a).
Proof.
  intros S (T & D & L) K O. apply dict_of_sorted in S. split; [|split].
  - intros q Q. cbn [i_text]. rewrite put_text by exact S. rewrite keys_differ; [|exact K| |rewrite Q; reflexivity].
    + pose proof (dict_of_text look i q) as E. cbn [i_text] in E. rewrite E, (T q Q). destruct a, k, q; reflexivity.
    + intros ->. destruct k; discriminate.
  - intros q Q. cbn [i_date]. destruct (beq (info_key q) (info_key k)) eqn:E.
    + assert (EQ : q = k) by (destruct q, k; try discriminate; reflexivity). subst q. rewrite date_parse by assumption. destruct a, k; try discriminate; reflexivity.
    + rewrite date_other by assumption. pose proof (dict_of_date look i q) as E2. cbn [i_date] in E2. rewrite E2, (D q Q). destruct a, q, k; try discriminate; reflexivity.
  - destruct a, k; exact L.
Qed.
Lemma put_writable a k v : writable a -> date_ok v -> writable (put_date k v a).
Proof. intros W O. destruct a, k; cbn [put_date]; try exact W; unfold writable in *; cbn in *; tauto. Qed.
Lemma same_date_iff a b : same_date a b = true <-> a = b.
Proof.
  destruct a as [[s f]|], b as [[s' f']|]; cbn [same_date d_off d_secs]; split; intros H; try discriminate H; try reflexivity.
  - apply andb_prop in H. destruct H as [H1 H2]. apply Z.eqb_eq in H2. subst. destruct f, f'; cbn [same_off] in H1; try discriminate H1; [|reflexivity].
    apply Z.eqb_eq in H1. subst. reflexivity.
  - injection H as -> ->. rewrite Z.eqb_refl. destruct f'; cbn [same_off]; rewrite ?Z.eqb_refl; reflexivity.
Qed.
Lemma put_same k a : dated k = true -> put_date k (date_field k a) a = a.
Proof. destruct a, k; intros; try discriminate; reflexivity. Qed.
Lemma unsynced_good x a : good x a -> good (mk_doc (objects x) (info x) (stream x) (cache x) (init x) false (packet x)) a.
Proof. exact (fun G => G). Qed.

(** What a call leaves: metadata that are read again, in this document or in the one that is loaded *)
Lemma set_date_good k v b x a : good x a -> dated k = true -> date_ok v -> exists x', set_date e k v b x = Ok x' /\ ready x' (put_date k v a) /\
  (b = true -> date_field k a <> v -> ready (reopened x') (put_date k v a)).
Proof.
  intros G K O. pose proof G as (I0 & C & W & A & P). unfold set_date, ensure. rewrite I0. cbn [bind]. rewrite C.
  destruct (same_date (date_field k a) v) eqn:E.
  - apply same_date_iff in E. subst v. exists x. split; [reflexivity|]. rewrite (put_same k a K). split; [apply good_ready, G|]. intros _ H. destruct (H eq_refl).
  - set (y := mk_doc (objects x) (Some (info_put (info_key k) (option_map (date_text false) v) (the_info x))) (stream x) (put_date k v a) (init x) (synced x) (packet x)).
    assert (GY : good y (put_date k v a)).
    { split; [exact I0|]. split; [reflexivity|]. split; [apply put_writable; assumption|]. split; [exact (put_agree _ _ _ k v A K O)|]. cbn [y packet stream objects info].
      destruct (packet x) as [p|]; [exact P|]. destruct P as [P1 P2]. split; [exact P1|]. exact (put_whole _ _ _ k v (proj1 A) P2 K O). }
    unfold finish. destruct b.
    + destruct (synced_ready false y _ GY) as (x' & EX & R & EI & EO & SP & SN). exists x'. split; [exact EX|]. split; [exact R|]. intros _ _.
      destruct (packet y) as [p|] eqn:EP.
      * destruct SP as (p' & ES & TP & ST); [left; discriminate|]. unfold reopened. rewrite ES, EI, EO. apply reread; [apply GY|apply GY|exact TP|exact ST].
      * rewrite (SN eq_refl eq_refl). destruct GY as (_ & _ & WY & AY & PY). rewrite EP in PY. destruct PY as [CN WH].
        unfold reopened. exact (reread_whole _ _ _ _ _ _ AY WY WH CN).
    + eexists. split; [reflexivity|]. split; [apply good_ready; exact GY|]. intros H. discriminate H.
Qed.
Lemma ensure_good x a : good x a -> ensure e x = Ok x.
Proof. intros G. unfold ensure. rewrite (proj1 G). reflexivity. Qed.
Lemma level_iff a b : level_eqb a b = true <-> a = b.
Proof. destruct a, b; cbn; split; intros; try discriminate; reflexivity. Qed.
Lemma xmp_good x a : good x a -> exists x', ensure_xmp e x = Ok x' /\ good x' a /\ packet x' <> None.
Proof.
  intros G. pose proof G as (I0 & C & W & A & P). unfold ensure_xmp. rewrite C.
  assert (X : exists p, match packet x with Some p => Ok p | None => update e None a end = Ok p /\ tidy p).
  { destruct (packet x) as [p|]; [exists p; split; [reflexivity|exact P]|]. destruct (update_new e a W) as (kids' & p' & U & _ & ST & N' & S').
    exists p'. split; [exact U|]. exists kids'. split; assumption. }
  destruct X as (p & -> & TP). cbn [bind]. eexists. split; [reflexivity|]. split; [|discriminate]. split; [exact I0|]. split; [reflexivity|]. split; [exact W|].
  split; [|exact TP]. cbn [objects info]. assert (O1 : date_ok (m_created a)) by apply W. assert (O2 : date_ok (m_modified a)) by apply W.
  pose proof (put_agree _ _ _ KCreated _ A eq_refl O1) as A1. change (m_created a) with (date_field KCreated a) in A1 at 2. rewrite put_same in A1 by reflexivity.
  pose proof (put_agree _ _ _ KModified _ A1 eq_refl O2) as A2. change (m_modified a) with (date_field KModified a) in A2 at 2. rewrite put_same in A2 by reflexivity.
  exact A2.
Qed.
Lemma level_good l b x a : good x a -> exists x', set_level e l b x = Ok x' /\ ready x' (put_level l a).
Proof.
  intros G. unfold set_level. rewrite (ensure_good x a G). cbn [bind]. rewrite (proj1 (proj2 G)). destruct (level_eqb (m_level a) l) eqn:E.
  - apply level_iff in E. subst l. exists x. split; [reflexivity|]. replace (put_level (m_level a) a) with a by (destruct a; reflexivity). apply good_ready, G.
  - assert (X : exists y, (if level_eqb l LUnknown then Ok x else ensure_xmp e x) = Ok y /\ good y a /\ packet y <> None).
    { destruct (level_eqb l LUnknown) eqn:U.
      - exists x. split; [reflexivity|]. split; [exact G|]. intros N. destruct G as (_ & _ & _ & _ & P). rewrite N in P. destruct P as (_ & _ & _ & L).
        apply level_iff in U. subst l. rewrite L in E. discriminate E.
      - exact (xmp_good x a G). }
    destruct X as (y & -> & GY & NP). cbn [bind]. pose proof GY as (I0 & C & W & A & P).
    assert (GZ : good (mk_doc (objects y) (info y) (stream y) (put_level l (cache y)) (init y) (synced y) (packet y)) (put_level l a)).
    { split; [exact I0|]. split; [cbn [cache]; rewrite C; reflexivity|]. split; [destruct a; exact W|]. split.
      - cbn [objects info]. destruct A as (S & T & CR & D). split; [exact S|]. split; [intros k K; destruct (T k K) as [Z|Z]; [left; exact Z|right]; rewrite Z; destruct a, k; reflexivity|].
        split; [rewrite CR; destruct a; reflexivity|]. intros k K. destruct (D k K) as (o & HO & V). exists o. split; [exact HO|]. destruct V as [V|V]; [left; exact V|right].
        rewrite V. destruct a, k; reflexivity.
      - cbn [packet]. destruct (packet y); [exact P|destruct (NP eq_refl)]. }
    unfold finish. destruct b.
    + destruct (synced_ready false _ _ GZ) as (x' & EX & R & _). exists x'. split; assumption.
    + eexists. split; [reflexivity|]. apply good_ready. exact GZ.
Qed.
Lemma ensure_twice (A : Type) (f : doc -> res A) x x1 a : ensure e x = Ok x1 -> good x1 a -> (do y <- ensure e x; f y) = (do y <- ensure e x1; f y).
Proof. intros E G. rewrite E, (ensure_good x1 a G). reflexivity. Qed.

(** Every call does what it means *)
Lemma step_ready c x a : ready x a -> call_ok c -> exists x', step e c x = Ok (x', reply c a) /\ ready x' (meant c a).
Proof.
  intros (x1 & E & G) O. pose proof G as (I0 & C & W & A & P).
  assert (R1 : ready x1 a) by (apply good_ready, G).
  destruct c as [v b|v b|l b|f|now|k| | |]; cbn [step meant reply].
  - unfold set_date. rewrite (ensure_twice _ _ x x1 a E G). destruct (set_date_good KCreated v b x1 a G eq_refl O) as (x' & H & R & _). unfold set_date in H. rewrite H.
    exists x'. split; [reflexivity|]. replace (mk_meta _ _ _ _ _ _ _ _ _) with (put_date KCreated v a) by (destruct a; reflexivity). exact R.
  - unfold set_date. rewrite (ensure_twice _ _ x x1 a E G). destruct (set_date_good KModified v b x1 a G eq_refl O) as (x' & H & R & _). unfold set_date in H. rewrite H.
    exists x'. split; [reflexivity|]. replace (mk_meta _ _ _ _ _ _ _ _ _) with (put_date KModified v a) by (destruct a; reflexivity). exact R.
  - unfold set_level. rewrite (ensure_twice _ _ x x1 a E G). destruct (level_good l b x1 a G) as (x' & H & R). unfold set_level in H. rewrite H.
    exists x'. split; [reflexivity|]. replace (mk_meta _ _ _ _ _ _ _ _ _) with (put_level l a) by (destruct a; reflexivity). exact R.
  - unfold sync. rewrite E. cbn [bind]. destruct (synced x1); [exists x1; split; [reflexivity|exact R1]|].
    destruct (synced_ready f x1 a G) as (x' & H & R & _). rewrite H. exists x'. split; [reflexivity|exact R].
  - unfold before_write, set_date. rewrite (ensure_twice _ _ x x1 a E G). destruct (set_date_good KModified (Some now) true x1 a G eq_refl O) as (x' & H & R & _).
    unfold set_date in H. rewrite H. exists x'. split; [reflexivity|]. replace (mk_meta _ _ _ _ _ _ _ _ _) with (put_date KModified (Some now) a) by (destruct a; reflexivity). exact R.
  - unfold get_text. rewrite E. cbn [bind]. rewrite C. exists x1. split; [destruct k; reflexivity|exact R1].
  - unfold get_date. rewrite E. cbn [bind]. rewrite C. exists x1. split; [reflexivity|exact R1].
  - unfold get_date. rewrite E. cbn [bind]. rewrite C. exists x1. split; [reflexivity|exact R1].
  - unfold get_level. rewrite E. cbn [bind]. rewrite C. exists x1. split; [reflexivity|exact R1].
Qed.
Lemma play_ready l : forall x a, ready x a -> Forall call_ok l -> exists x', play e l x = Ok (x', replies l a) /\ ready x' (after l a).
Proof.
  induction l as [|c l IH]; intros x a R F; [exists x; split; [reflexivity|exact R]|]. inversion F as [|? ? F1 F2]; subst.
  destruct (step_ready c x a R F1) as (x1 & H1 & R1). destruct (IH x1 _ R1 F2) as (x2 & H2 & R2). exists x2. cbn [play replies after]. rewrite H1. cbn [bind].
  rewrite H2. split; [reflexivity|exact R2].
Qed.
Lemma save_ready now x a : ready x a -> date_ok (Some now) -> m_modified a <> Some now -> exists x', before_write e now x = Ok x' /\
  ready (reopened x') (meant (Save now) a).
Proof.
  intros (x1 & E & G) O N. unfold before_write, set_date. rewrite (ensure_twice _ _ x x1 a E G).
  destruct (set_date_good KModified (Some now) true x1 a G eq_refl O) as (x' & H & _ & R). unfold set_date in H. rewrite H. exists x'. split; [reflexivity|].
  replace (meant (Save now) a) with (put_date KModified (Some now) a) by (destruct a; reflexivity). exact (R eq_refl N).
Qed.

(** Loading *)
Lemma tells_iff x k v : match info x with Some d => DictProofs.sorted d | None => True end ->
  tells x k v <-> match info x with Some d => info_text (objects x) d k = Some v | None => False end.
Proof.
  intros S. unfold tells. destruct (info x) as [d|]; [|split; [intros (d & H & _); discriminate H|intros []]].
  rewrite (info_iff _ d k v (DictProofs.sorted_nodup d S)). split; [intros (d' & H & T); injection H as <-; exact T|eauto].
Qed.
Lemma first_text x k later r : match info x with Some d => DictProofs.sorted d | None => True end -> first_of (tells x (info_key k)) later r ->
  r = or_else (i_text (objects x) (info x) k) later /\ (i_text (objects x) (info x) k = None \/ i_text (objects x) (info x) k = r).
Proof.
  intros S [(v & T & ->)|(N & ->)].
  - apply (tells_iff x _ _ S) in T. unfold i_text. destruct (info x) as [d|]; [|destruct T]. unfold dict0 in *. rewrite T. split; [reflexivity|right; reflexivity].
  - assert (E : i_text (objects x) (info x) k = None).
    { unfold i_text. destruct (info x) as [d|] eqn:I0; [|reflexivity]. destruct (info_text (objects x) d (info_key k)) as [v|] eqn:T; [|reflexivity].
      destruct (N v). apply (tells_iff x); rewrite I0; assumption. }
    rewrite E. split; [reflexivity|left; reflexivity].
Qed.
Lemma first_date_eq x k later r : match info x with Some d => DictProofs.sorted d | None => True end -> first_date (tells x (info_key k)) later r ->
  exists o, i_date (objects x) (info x) k = Ok o /\ r = or_else o later /\ (o = None \/ o = r).
Proof.
  intros S [(v & d & T & P & ->)|(N & ->)].
  - apply (tells_iff x _ _ S) in T. unfold i_date, info_date. destruct (info x) as [dd|]; [|destruct T]. unfold dict0 in *. rewrite T, P.
    exists (Some d). repeat split. right. reflexivity.
  - exists None. split; [|split; [reflexivity|left; reflexivity]]. unfold i_date, info_date. destruct (info x) as [d|] eqn:I0; [|reflexivity].
    destruct (info_text (objects x) d (info_key k)) as [v|] eqn:T; [|reflexivity]. destruct (N v). apply (tells_iff x); rewrite I0; assumption.
Qed.
Lemma loaded_ready x q pm a : loaded x -> get_meta e (stream x) = Ok (q, pm) -> m_creator pm = None -> has_meta x pm a -> writable a -> ready x a.
Proof.
  intros (I0 & C0 & S & ST) G CN (H1 & H2 & H3 & H4 & H5 & H6 & H7 & H8 & H9) W.
  assert (S' : match info x with Some d => DictProofs.sorted d | None => True end) by exact S.
  destruct (first_text x KTitle _ _ S' H1) as [E1 V1]. destruct (first_text x KAuthor _ _ S' H2) as [E2 V2]. destruct (first_text x KSubject _ _ S' H3) as [E3 V3].
  destruct (first_text x KKeywords _ _ S' H4) as [E4 V4]. destruct (first_text x KCreator _ _ S' H5) as [E5 V5]. destruct (first_text x KProducer _ _ S' H6) as [E6 V6].
  destruct (first_date_eq x KCreated _ _ S' H7) as (oc & D7 & E7 & V7). destruct (first_date_eq x KModified _ _ S' H8) as (om & D8 & E8 & V8).
  assert (A : agree (objects x) (info x) a).
  { split; [exact S'|]. split; [|split].
    - intros k K. destruct k; try discriminate K; assumption.
    - rewrite E5. destruct (i_text (objects x) (info x) KCreator); reflexivity.
    - intros k K. destruct k; try discriminate K; [exists oc|exists om]; split; assumption. }
  assert (RI : exists c, match info x with Some d => read_info (objects x) d (cache x) | None => Ok (cache x) end = Ok c /\ 
    join c pm = a /\ c = mk_meta (i_text (objects x) (info x) KTitle) (i_text (objects x) (info x) KAuthor) (i_text (objects x) (info x) KSubject)
      (i_text (objects x) (info x) KKeywords) (i_text (objects x) (info x) KCreator) (i_text (objects x) (info x) KProducer) oc om LUnknown).
  { rewrite C0. assert (J : join (mk_meta (i_text (objects x) (info x) KTitle) (i_text (objects x) (info x) KAuthor) (i_text (objects x) (info x) KSubject)
      (i_text (objects x) (info x) KKeywords) (i_text (objects x) (info x) KCreator) (i_text (objects x) (info x) KProducer) oc om LUnknown) pm = a).
    { unfold join. cbn [m_title m_author m_subject m_keywords m_creator m_producer m_created m_modified m_level]. rewrite CN, <- E1, <- E2, <- E3, <- E4, <- E5, <- E6, <- E7, <- E8, <- H9.
      destruct a; reflexivity. }
    destruct (info x) as [d|]; cbn [i_text i_date info_key] in *.
    - unfold read_info. rewrite D7. cbn [bind]. rewrite D8. cbn [bind info_key field no_meta m_title m_author m_subject m_keywords m_creator m_producer m_level].
      assert (E : forall o : option (list Z), or_else o None = o) by (intros [z|]; reflexivity). rewrite !E. eexists. split; [reflexivity|]. split; [exact J|reflexivity].
    - apply ok_inj in D7. apply ok_inj in D8. subst oc om. eexists. split; [reflexivity|]. split; [exact J|reflexivity]. }
  destruct RI as (c & RI & J & EC).
  destruct (stream x) as [p|] eqn:ES.
  - assert (X : exists p' kids, create e (Some p) = Ok (Some p') /\ normal kids p' /\ single kids).
    { destruct ST as [CP|(kids & N & SG)]; [exact (clear_normal e p honest_e CP)|exact (created_single e p kids honest_e N SG)]. }
    destruct X as (p' & kids & CR & N & SG). assert (EQ : q = Some p').
    { unfold get_meta in G. rewrite CR in G. cbn [bind] in G. apply bind_ok in G. destruct G as (mm & _ & G). apply ok_inj in G. injection G as G _. symmetry. exact G. }
    subst q. eexists. split.
    + unfold ensure. rewrite I0, RI. cbn [bind]. rewrite ES, G. cbn [bind]. rewrite J. reflexivity.
    + split; [reflexivity|]. split; [reflexivity|]. split; [exact W|]. split; [exact A|]. cbn [packet]. exists kids. split; assumption.
  - cbn in G. apply ok_inj in G. injection G as <- <-. eexists. split.
    + unfold ensure. rewrite I0, RI. cbn [bind]. rewrite ES. cbn [get_meta create bind packet_meta]. reflexivity.
    + assert (CA : c = a).
      { rewrite <- J, EC. unfold join. cbn [m_title m_author m_subject m_keywords m_creator m_producer m_created m_modified m_level no_meta].
        assert (E : forall (T : Type) (o : option T), or_else o None = o) by (intros T [z|]; reflexivity). rewrite !E. reflexivity. }
      split; [reflexivity|]. split; [exact CA|]. split; [exact W|]. split; [exact A|]. cbn [packet stream objects info]. split; [reflexivity|].
      rewrite <- CA, EC. split; [intros k K; destruct k; try discriminate K; reflexivity|]. split; [|reflexivity].
      intros k K. destruct k; try discriminate K; assumption.
Qed.

(** Setting a text does nothing, unless it is the text that is there *)
Lemma set_text_nothing k v b x a : ready x a -> textual k = true -> k <> KAuthor -> field k a <> v -> exists x', set_text e k v b x = Ok x' /\ ensure e x = Ok x' /\ ready x' a.
Proof.
  intros (x1 & E & G) K NA V. unfold set_text. exists x1.
  assert (S : same_ref (field k a) v = true).
  { destruct (field k a) as [s|], v as [t|]; cbn [same_ref]; try reflexivity; [|destruct (V eq_refl)]. destruct (beq s t) eqn:B; [|reflexivity].
    apply beq_eq in B. subst. destruct (V eq_refl). }
  split; [|split; [exact E|apply good_ready, G]].
  destruct k; try discriminate K; try (destruct (NA eq_refl)); rewrite E; cbn [bind]; rewrite (proj1 (proj2 G)), S; reflexivity.
Qed.
End States.
