(** The properties of form fields, from [FieldProofs]. *)
From Coq Require Import String.
From Verif Require Import Base ChainProofs TokModel DictProofs OwnModel OwnSpec OwnProofs ListModel PageModel PageProofs FieldModel FieldSpec FieldProofs.
Local Open Scope Z_scope.

(** ** Flags and kinds *)
Lemma flag_codes f : code_of f = 2 ^ (position f - 1). Proof. destruct f; reflexivity. Qed.
Lemma flag_set h r d z f on : at_dict h r d -> flags_in h d z ->
  exists n h' d' z', (forall fuel, (n <= fuel)%nat -> set_flag fuel h r (code_of f) on = Ok h' /\ forall g def, get_flag fuel h' r (code_of g) def = Ok (has_flag z' g)) /\
    changed_only h h' r /\ at_dict h' r d' /\ same_but [bs "Ff"] d d' /\ get_key (bs "Ff") d' = Some (ONum z') /\
    forall i, 0 <= i -> Z.testbit z' i = if i =? position f - 1 then on else Z.testbit z i.
Proof.
  intros A F. destruct (set_flag_at h r d z f on A F) as (n & N). exists (S n). do 2 eexists. exists (flip z (position f - 1) on).
  assert (G : get_key (bs "Ff") (add_key (bs "Ff") (ONum (flip z (position f - 1) on)) d) = Some (ONum (flip z (position f - 1) on))) by (rewrite get_added by apply A; rewrite beq_refl; reflexivity).
  split; [|split; [apply changed_set, changed_refl|split; [apply set_at, A|split; [apply same_add; [apply A|cbn; auto|apply same_refl]|split; [exact G|]]]]].
  - intros [|fuel] L; [lia|]. split; [apply N; lia|]. intros g def. apply get_flag_own with (add_key (bs "Ff") (ONum (flip z (position f - 1) on)) d); [apply set_at, A|exact G].
  - intros i I. apply flip_bits; [apply position_pos|exact I].
Qed.
Lemma flag_got h r d z f def : at_dict h r d -> flags_in h d z -> exists n, forall fuel, (n <= fuel)%nat ->
  get_flag fuel h r (code_of f) def = Ok (has_flag z f) \/ (inherits h (bs "Ff") d None /\ get_flag fuel h r (code_of f) def = Ok def).
Proof. apply get_flag_in. Qed.
Lemma kind_kept h r d z f on k : at_dict h r d -> flags_in h d z -> kind_is h d k -> kind_flag f = false -> without h r [bs "FT"] d ->
  exists n h' d', (forall fuel, (n <= fuel)%nat -> set_flag fuel h r (code_of f) on = Ok h') /\ at_dict h' r d' /\ kind_is h' d' k.
Proof.
  intros A F K NK W. destruct (flag_set h r d z f on A F) as (n & h' & d' & z' & N & C & A' & B & G & BITS). exists n, h', d'.
  split; [intros fuel L; apply (N fuel L)|]. split; [exact A'|].
  assert (FT : forall x, inherits h (bs "FT") d x -> inherits h' (bs "FT") d' x)
    by (intros x X; apply (inherits_change h h' r [bs "Ff"] d d' (bs "FT") x C B); [intros [Y|[]]; discriminate|intros [Y|[]]; discriminate|exact W|exact X]).
  assert (F' : flags_in h' d' z') by (apply own_flags, G).
  assert (KEEP : forall g, kind_flag g = true -> has_flag z' g = has_flag z g).
  { intros g KG. unfold has_flag. rewrite BITS by (pose proof (position_pos g); lia). destruct (Z.eqb_spec (position g - 1) (position f - 1)) as [E|_]; [|reflexivity].
    assert (g = f) by (apply position_inj; lia). subst g. congruence. }
  assert (DET : forall x, flags_in h d x -> x = z).
  { intros x X. destruct (flags_found h d x X) as (a & Pa). destruct (flags_found h d z F) as (b & Pb).
    destruct (Pa (a + b)%nat ltac:(lia)) as (o & E & Z1 & _). destruct (Pb (a + b)%nat ltac:(lia)) as (o' & E' & Z2 & _).
    rewrite E in E'. apply ok_inj in E'. rewrite E' in Z1. congruence. }
  inversion K as [x T X P|x T X P R|x T X P R|T|x T X P|x T X P|T|T]; subst; try (rewrite (DET _ X) in *); try rewrite <- (KEEP Pushbutton eq_refl) in *; try rewrite <- (KEEP Radio eq_refl) in *;
    try rewrite <- (KEEP Combo eq_refl) in *.
  - eapply ki_push; eauto.
  - eapply ki_radio; eauto.
  - eapply ki_check; eauto.
  - eapply ki_text; eauto.
  - eapply ki_combo; eauto.
  - eapply ki_list; eauto.
  - eapply ki_sig; eauto.
  - eapply ki_none; eauto.
Qed.

(** ** Names *)
Lemma fold_join0 l : Forall (fun n : list Z => n <> []) l -> fold_left append_name l [] = join l. Proof. exact (fold_join l []). Qed.
Lemma names_joined h r d ns : h r = Some (ODict d) -> lineage h (ODict d) ns -> Forall (fun n => n <> []) ns ->
  exists n, forall fuel, (n <= fuel)%nat ->
    (exists x, full_name fuel h r false = Ok x /\ dotted ns x) /\
    (exists x ms, full_name fuel h r true = Ok x /\ Forall2 doubled ns ms /\ dotted ms x).
Proof.
  intros HR L F. destruct (full_name_lineage h _ ns L false) as (n & N). destruct (full_name_lineage h _ ns L true) as (m & M).
  assert (FE : Forall (fun n => n <> []) (map escape_name ns)).
  { clear - F. induction F as [|x ns N _ IH]; [constructor|]. constructor; [|exact IH]. destruct x as [|c x]; [congruence|]. cbn. destruct (c =? 46); discriminate. }
  exists (n + m)%nat. intros fuel LE. unfold full_name. rewrite HR. split.
  - exists (join ns). split; [|apply join_dotted]. rewrite N by lia. rewrite map_id. f_equal. apply (fold_join ns []), F.
  - exists (join (map escape_name ns)), (map escape_name ns). split; [|split; [|apply join_dotted]].
    + rewrite M by lia. f_equal. apply (fold_join (map escape_name ns) []), FE.
    + clear. induction ns as [|x ns IH]; constructor; [apply doubled_escape|exact IH].
Qed.
Lemma names_unique h r d ns h2 r2 d2 ns2 : h r = Some (ODict d) -> lineage h (ODict d) ns -> h2 r2 = Some (ODict d2) -> lineage h2 (ODict d2) ns2 ->
  exists n, forall fuel, (n <= fuel)%nat ->
    (Forall (fun n => n <> [] /\ ~ In 46 n) ns -> Forall (fun n => n <> [] /\ ~ In 46 n) ns2 -> full_name fuel h r false = full_name fuel h2 r2 false -> ns = ns2) /\
    (Forall (fun n => n <> [] /\ ~ starts_with_dot n) ns -> Forall (fun n => n <> [] /\ ~ starts_with_dot n) ns2 -> full_name fuel h r true = full_name fuel h2 r2 true -> ns = ns2).
Proof.
  intros HR L HR2 L2. assert (E : forall (P : list Z -> Prop) l, Forall (fun n => n <> [] /\ P n) l -> Forall (fun n : list Z => n <> []) l)
    by (intros P l; apply Forall_impl; intros a [X _]; exact X).
  destruct (full_name_lineage h _ ns L false) as (a & A). destruct (full_name_lineage h _ ns L true) as (b & B).
  destruct (full_name_lineage h2 _ ns2 L2 false) as (a2 & A2). destruct (full_name_lineage h2 _ ns2 L2 true) as (b2 & B2).
  assert (FE : forall ns, Forall (fun n => n <> []) ns -> Forall (fun n => n <> []) (map escape_name ns)).
  { clear. intros ns F. induction F as [|x ns N _ IH]; [constructor|]. constructor; [|exact IH]. destruct x as [|c x]; [congruence|]. cbn. destruct (c =? 46); discriminate. }
  exists (a + b + a2 + b2)%nat. intros fuel LE. unfold full_name. rewrite HR, HR2. split; intros F F2 X.
  - rewrite A, A2 in X by lia. apply ok_inj in X. rewrite !map_id in X. rewrite (fold_join0 ns), (fold_join0 ns2) in X by (apply (E (fun n => ~ In 46 n)); assumption). apply join_plain_inj; assumption.
  - rewrite B, B2 in X by lia. apply ok_inj in X. change (fold_left append_name (map escape_name ns) [] = fold_left append_name (map escape_name ns2) []) in X. rewrite (fold_join0 (map escape_name ns)), (fold_join0 (map escape_name ns2)) in X by (apply FE, (E (fun n => ~ starts_with_dot n)); assumption).
    apply join_escaped_inj; assumption.
Qed.
Lemma name_set h r d n : at_dict h r d -> ~ In 46 n -> exists h' d', set_name h r (Some n) = Ok h' /\ changed_only h h' r /\ at_dict h' r d' /\ same_but [bs "T"] d d' /\
  own_name d' [n] /\ get_name_raw h' r = Ok (Some n) /\ forall fuel, get_name (S fuel) h' r = Ok (Some n).
Proof.
  intros A N. assert (X : existsb (Z.eqb 46) n = false).
  { destruct (existsb (Z.eqb 46) n) eqn:E; [|reflexivity]. apply existsb_exists in E. destruct E as (c & I & C). apply Z.eqb_eq in C. subst c. contradiction. }
  do 2 eexists. split; [unfold set_name, check_name; rewrite X; cbn [bind]; apply set_key_at, A|]. split; [apply changed_set, changed_refl|]. split; [apply set_at, A|].
  split; [apply same_add; [apply A|cbn; auto|apply same_refl]|].
  assert (G : get_key (bs "T") (add_key (bs "T") (OStr false n) d) = Some (OStr false n)) by (rewrite get_added by apply A; rewrite beq_refl; reflexivity).
  split; [eapply on_some, G|]. unfold get_name_raw, get_name, dict_at. rewrite set_same. cbn [bind]. rewrite G. split; [reflexivity|].
  intro fuel. cbn [find_key_parent]. unfold dict_find. rewrite G. reflexivity.
Qed.
Lemma name_dot h r n : In 46 n -> set_name h r (Some n) = Err EInternalLogic.
Proof. intro I. unfold set_name, check_name. replace (existsb (Z.eqb 46) n) with true; [reflexivity|]. symmetry. apply existsb_exists. exists 46. auto. Qed.
Lemma name_cleared h r d : at_dict h r d -> exists h' d', set_name h r None = Ok h' /\ changed_only h h' r /\ at_dict h' r d' /\ same_but [bs "T"] d d' /\ own_name d' [] /\ get_name_raw h' r = Ok None.
Proof.
  intros A. assert (E : set_name h r None = Ok (PageModel.set r (Some (ODict (snd (remove_key (bs "T") d)))) h)) by (unfold set_name, dict_at; rewrite (proj1 A); reflexivity).
  assert (R : DictProofs.sorted (snd (remove_key (bs "T") d)) /\ forall q, get_key q (snd (remove_key (bs "T") d)) = if beq q (bs "T") then None else get_key q d).
  { unfold remove_key. rewrite has_get. destruct (get_key (bs "T") d) eqn:G; cbn [snd].
    - split; [apply erase_sorted, A|]. intro q. apply erase_get, A.
    - split; [apply A|]. intro q. destruct (beq q (bs "T")) eqn:Q; [apply beq_eq in Q; subst q; exact G|reflexivity]. }
  destruct R as [RS RG]. rewrite E. do 2 eexists. split; [reflexivity|]. split; [apply changed_set, changed_refl|]. split; [split; [apply set_same|exact RS]|].
  assert (G : get_key (bs "T") (snd (remove_key (bs "T") d)) = None) by (rewrite RG, beq_refl; reflexivity).
  split; [|split; [apply on_none, G|]].
  - intros q N. rewrite RG. destruct (beq q (bs "T")) eqn:Q; [apply beq_eq in Q; subst q; destruct N; left; reflexivity|reflexivity].
  - unfold get_name_raw, dict_at. rewrite set_same. cbn [bind]. rewrite G. reflexivity.
Qed.
(** Two forms of one field each, whose fields have different names *)
Definition two (a b : list Z) : heap := fun q =>
  if beq [fst q; snd q] [1; 0] then Some (ODict [(bs "T", OStr false a)])
  else if beq [fst q; snd q] [2; 0] then Some (ODict [(bs "Parent", ORef 1 0); (bs "T", OStr false b)]) else None.
Lemma two_lineage a b : exists d, two a b (2, 0) = Some (ODict d) /\ lineage (two a b) (ODict d) [a; b].
Proof.
  exists [(bs "Parent", ORef 1 0); (bs "T", OStr false b)]. split; [reflexivity|]. apply (li_child _ _ (ODict [(bs "T", OStr false a)]) [a] [b]).
  - apply dict_find_entry. reflexivity.
  - apply li_root; [intros p E; apply dict_find_entry in E; discriminate|eapply on_some; reflexivity].
  - eapply on_some. reflexivity.
Qed.
Lemma escaped_alike : exists a b a2 b2, [a; b] <> [a2; b2] /\ Forall (fun n => n <> []) [a; b; a2; b2] /\
  (exists x, forall fuel, full_name (S (S fuel)) (two a b) (2, 0) true = Ok x /\ full_name (S (S fuel)) (two a2 b2) (2, 0) true = Ok x).
Proof.
  exists (bs "a."), (bs "b"), (bs "a"), (bs ".b"). split; [discriminate|]. split; [repeat constructor; discriminate|].
  exists (bs "a...b"). intro fuel. split; reflexivity.
Qed.
Lemma empty_alike : forall b, exists x, forall fuel, full_name (S (S fuel)) (two [] b) (2, 0) false = Ok x /\ dotted [b] x.
Proof. intro b. exists b. intro fuel. split; [reflexivity|constructor]. Qed.
Lemma name_cycle h r d : h r = Some (ODict d) -> get_key (bs "Parent") d = Some (to_ref r) -> forall fuel esc, full_name fuel h r esc = Fuel.
Proof. intros H P fuel esc. unfold full_name. rewrite H. apply full_name_cycle with r; assumption. Qed.
Lemma name_by_reference h r d n g hx s : h r = Some (ODict d) -> get_key (bs "T") d = Some (ORef n g) -> h (n, g) = Some (OStr hx s) -> get_key (bs "Parent") d = None ->
  forall fuel esc, full_name (S fuel) h r esc = Err EInvalidDataType /\ get_name (S fuel) h r = Ok (Some s).
Proof.
  intros H T R P fuel esc. unfold full_name. rewrite H. cbn [full_name_of as_dict bind]. unfold dict_find. rewrite P. cbn [bind]. rewrite T. split; [reflexivity|].
  unfold get_name, dict_at. rewrite H. cbn [bind find_key_parent]. unfold dict_find. rewrite T, R. reflexivity.
Qed.

(** ** Choice fields *)
Lemma choice_item_one h r d hx s : h r = Some (ODict d) -> get_key (bs "Kids") d = None -> get_key (bs "Opt") d = Some (OArr [OArr [OStr hx s]]) -> get_key (bs "V") d = Some (OStr hx s) ->
  get_selected h r = Ok 0 /\ get_item h r 0 = Err EInvalidDataType.
Proof.
  intros H K G V. unfold get_selected, get_item, opt_array, dict_at. rewrite H. cbn [bind]. unfold terminal. rewrite has_get, K. cbn [bind]. unfold dict_find. rewrite V, G. cbn [bind].
  split; [cbn [find_value must_find_at nth_error bind as_text]; rewrite beq_refl; reflexivity|reflexivity].
Qed.
Lemma choice_by_reference h r d n g x : h r = Some (ODict d) -> get_key (bs "Opt") d = Some (OArr [ORef n g]) -> h (n, g) = Some (OStr false x) ->
  get_item h r 0 = Err EInvalidDataType.
Proof.
  intros H G R. unfold get_item, opt_array, dict_at. rewrite H. cbn [bind]. unfold dict_find. rewrite G. cbn [bind]. reflexivity.
Qed.
Lemma remove_keeps_value h r its i d hx v : options h r its -> (i < length its)%nat -> h r = Some (ODict d) -> get_key (bs "V") d = Some (OStr hx v) ->
  exists h' d', remove_item h r i = Ok h' /\ h' r = Some (ODict d') /\ get_key (bs "V") d' = Some (OStr hx v).
Proof.
  intros H L HR V. destruct (remove_good h r its i H L) as (h' & d0 & d' & E & _ & A & A' & B & _). exists h', d'. split; [exact E|]. split; [apply A'|].
  rewrite (B (bs "V")) by (intros [X|[]]; discriminate). rewrite (proj1 A) in HR. injection HR as ->. exact V.
Qed.

(** ** Text fields and check boxes *)
Lemma max_len_lost h r d m fuel : at_dict h r d -> exists h', set_max_len h r m = Ok h' /\ get_max_len (S fuel) h' r = Ok (-1).
Proof.
  intro A. eexists. split; [apply set_key_at, A|]. unfold get_max_len, dict_at. rewrite set_same. cbn [bind find_key_parent]. unfold dict_find. rewrite get_added by apply A.
  rewrite beq_refl. reflexivity.
Qed.
Lemma spell_opposite h r d z on : at_dict h r d -> flags_in h d z ->
  exists n h', forall fuel, (n <= fuel)%nat -> set_spell fuel h r on = Ok h' /\ is_spell fuel h' r = Ok (negb on).
Proof. apply (enabled_opposite h r d z DoNotSpellCheck on). Qed.
Lemma scroll_opposite h r d z on : at_dict h r d -> flags_in h d z ->
  exists n h', forall fuel, (n <= fuel)%nat -> set_scroll fuel h r on = Ok h' /\ is_scroll fuel h' r = Ok (negb on).
Proof. apply (enabled_opposite h r d z DoNotScroll on). Qed.
Lemma triggers_known t : trigger_name t = trigger_key t \/ t = TFocusLeave.
Proof. destruct t; (right; reflexivity) || (left; reflexivity). Qed.
Lemma triggers_apart t u : trigger_name t = trigger_name u -> t = u.
Proof. destruct t, u; intro E; try reflexivity; discriminate E. Qed.
