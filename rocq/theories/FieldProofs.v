(** Proofs about the model of form fields. *)
From Coq Require Import String.
From Verif Require Import Base TokModel ChainProofs DictProofs OwnModel OwnSpec OwnProofs ListModel PageModel PageProofs FieldModel FieldSpec.
Local Open Scope Z_scope.

Lemma set_key_at h r k v d : at_dict h r d -> set_key h r k v = Ok (PageModel.set r (Some (ODict (add_key k v d))) h).
Proof. intros [E _]. unfold set_key, dict_at. rewrite E. reflexivity. Qed.
Lemma set_at h r k v d : at_dict h r d -> at_dict (PageModel.set r (Some (ODict (add_key k v d))) h) r (add_key k v d).
Proof. intros [_ S']. split; [apply set_same|apply dict_add_sorted, S']. Qed.
Lemma get_added k (v : obj) q d : DictProofs.sorted d -> get_key q (add_key k v d) = if beq q k then Some v else get_key q d.
Proof. apply dict_get_add. Qed.

(** ** Bits *)
Lemma land_pow a k : 0 <= k -> (Z.land a (2 ^ k) =? 2 ^ k) = Z.testbit a k.
Proof.
  intro K. assert (E : Z.land a (2 ^ k) = if Z.testbit a k then 2 ^ k else 0).
  { apply Z.bits_inj'. intros n N. rewrite Z.land_spec, Z.pow2_bits_eqb by exact K. destruct (Z.eqb_spec k n) as [->|D].
    - rewrite andb_true_r. destruct (Z.testbit a n) eqn:T; [rewrite Z.pow2_bits_true by lia; reflexivity|rewrite Z.bits_0; reflexivity].
    - rewrite andb_false_r. destruct (Z.testbit a k); [rewrite Z.pow2_bits_false by exact D; reflexivity|rewrite Z.bits_0; reflexivity]. }
  rewrite E. destruct (Z.testbit a k); [apply Z.eqb_refl|]. apply Z.eqb_neq. pose proof (Z.pow_pos_nonneg 2 k). lia.
Qed.
Definition flip (z k : Z) (on : bool) : Z := if on then Z.lor z (2 ^ k) else if Z.land z (2 ^ k) =? 2 ^ k then Z.lxor z (2 ^ k) else z.
Lemma flip_bits z k on j : 0 <= k -> 0 <= j -> Z.testbit (flip z k on) j = if j =? k then on else Z.testbit z j.
Proof.
  intros K J. unfold flip. destruct on.
  - rewrite Z.lor_spec, Z.pow2_bits_eqb by exact K. destruct (Z.eqb_spec k j), (Z.eqb_spec j k); try congruence; [apply orb_true_r|apply orb_false_r].
  - rewrite land_pow by exact K. destruct (Z.testbit z k) eqn:T.
    + rewrite Z.lxor_spec, Z.pow2_bits_eqb by exact K. destruct (Z.eqb_spec k j), (Z.eqb_spec j k); try congruence; [subst; rewrite T; reflexivity|apply xorb_false_r].
    + destruct (Z.eqb_spec j k); [subst; exact T|reflexivity].
Qed.
Lemma code_pow f : code_of f = 2 ^ (position f - 1). Proof. destruct f; reflexivity. Qed.
Lemma position_pos f : 0 <= position f - 1. Proof. destruct f; cbn; lia. Qed.
Lemma position_inj f g : position f = position g -> f = g. Proof. destruct f, g; cbn; intro H; congruence. Qed.
Lemma has_code z f : (Z.land z (code_of f) =? code_of f) = has_flag z f.
Proof. rewrite code_pow. apply land_pow, position_pos. Qed.

(** ** Flags of a field *)
Lemma flags_found h d z : flags_in h d z -> exists n, forall fuel, (n <= fuel)%nat -> exists o, flags_of fuel h d = Ok o /\ z = match o with None => 0 | Some x => x end /\
  (o = None <-> inherits h (bs "Ff") d None).
Proof.
  intros [z' H|H]; destruct (inherits_found _ _ _ _ H) as (n & N); exists n; intros fuel L; unfold flags_of; rewrite (N fuel L); cbn [bind number].
  - eexists. split; [reflexivity|]. split; [reflexivity|]. split; [discriminate|]. intro H2. exfalso.
    destruct (inherits_found _ _ _ _ H2) as (n2 & N2). specialize (N (n + n2)%nat ltac:(lia)). specialize (N2 (n + n2)%nat ltac:(lia)). congruence.
  - eexists. split; [reflexivity|]. split; [reflexivity|]. tauto.
Qed.
Lemma own_entry h d k v : get_key k d = Some v -> (forall n g, v <> ORef n g) -> entry h d k v.
Proof. intros G N. apply dict_find_entry. unfold dict_find. rewrite G. destruct v; try reflexivity. destruct (N _ _ eq_refl). Qed.
Lemma own_flags h d z : get_key (bs "Ff") d = Some (ONum z) -> flags_in h d z.
Proof. intro G. apply fl_num, inh_here, own_entry; [exact G|discriminate]. Qed.
Lemma set_flag_at h r d z f on : at_dict h r d -> flags_in h d z -> exists n, forall fuel, (n <= fuel)%nat ->
  set_flag fuel h r (code_of f) on = Ok (PageModel.set r (Some (ODict (add_key (bs "Ff") (ONum (flip z (position f - 1) on)) d))) h).
Proof.
  intros A H. destruct (flags_found h d z H) as (n & N). exists n. intros fuel L. destruct (N fuel L) as (o & E & Z0 & _).
  unfold set_flag, dict_at. rewrite (proj1 A). cbn [bind]. rewrite E. cbn [bind]. rewrite <- Z0. rewrite code_pow. fold (flip z (position f - 1) on).
  apply set_key_at, A.
Qed.
Lemma get_flag_own fuel h r d z f def : at_dict h r d -> get_key (bs "Ff") d = Some (ONum z) -> get_flag (S fuel) h r (code_of f) def = Ok (has_flag z f).
Proof.
  intros A G. unfold get_flag, dict_at. rewrite (proj1 A). cbn [bind]. unfold flags_of. cbn [find_key_parent]. unfold dict_find. rewrite G. cbn [bind number].
  rewrite has_code. reflexivity.
Qed.
Lemma get_flag_in h r d z f def : at_dict h r d -> flags_in h d z -> exists n, forall fuel, (n <= fuel)%nat ->
  get_flag fuel h r (code_of f) def = Ok (has_flag z f) \/ (inherits h (bs "Ff") d None /\ get_flag fuel h r (code_of f) def = Ok def).
Proof.
  intros A H. destruct (flags_found h d z H) as (n & N). exists n. intros fuel L. destruct (N fuel L) as (o & E & Z0 & Q).
  unfold get_flag, dict_at. rewrite (proj1 A). cbn [bind]. rewrite E. cbn [bind]. destruct o as [x|].
  - left. subst x. rewrite has_code. reflexivity.
  - right. split; [apply Q|]; reflexivity.
Qed.

(** ** Lookups that do not use a changed object *)
Lemma entry_other look look' r d k : (forall q, q <> r -> look' q = look q) -> get_key k d <> Some (ORef (fst r) (snd r)) ->
  dict_find look' k d = dict_find look k d.
Proof.
  intros A G. unfold dict_find. destruct (get_key k d) as [[]|]; try reflexivity. apply A. intro E. apply G. rewrite <- E. reflexivity.
Qed.
Lemma inherits_other look look' r k d x : (forall q, q <> r -> look' q = look q) -> inherits look k d x -> without look r [k] d -> inherits look' k d x.
Proof.
  intros A H. induction H as [d v E|d p x N E _ IH|d N P]; intro W.
  - apply inh_here. apply dict_find_entry. rewrite (entry_other look look' r d k A); [apply dict_find_entry, E|]. apply W; [apply ab_here|cbn; auto].
  - apply inh_up with p.
    + apply (proj1 (find_none look' d k)). rewrite (entry_other look look' r d k A); [apply find_none, N|]. apply W; [apply ab_here|cbn; auto].
    + apply dict_find_entry. rewrite (entry_other look look' r d _ A); [apply dict_find_entry, E|]. apply W; [apply ab_here|cbn; auto].
    + apply IH. intros a j AB IJ. apply W; [|exact IJ]. eapply ab_up; eauto.
  - apply inh_none.
    + apply (proj1 (find_none look' d k)). rewrite (entry_other look look' r d k A); [apply find_none, N|]. apply W; [apply ab_here|cbn; auto].
    + intros p X. apply dict_find_entry in X. rewrite (entry_other look look' r d _ A) in X; [apply dict_find_entry in X; destruct (P _ X)|]. apply W; [apply ab_here|cbn; auto].
Qed.
Lemma without_less look r ks js d : without look r ks d -> incl js ks -> without look r js d.
Proof. intros W I a k A [E|J]; apply (W a k A); [left; exact E|right; apply I, J]. Qed.
Lemma flags_other look look' r d z : (forall q, q <> r -> look' q = look q) -> without look r [bs "Ff"] d -> flags_in look d z -> flags_in look' d z.
Proof. intros A W [z' H|H]; [apply fl_num|apply fl_none]; eapply inherits_other; eauto. Qed.
Lemma kind_other look look' r d k : (forall q, q <> r -> look' q = look q) -> without look r kind_keys d -> kind_is look d k -> kind_is look' d k.
Proof.
  intros A W. assert (W1 : without look r [bs "FT"] d) by (apply (without_less _ _ _ _ _ W); intros ? [<-|[]]; cbn; auto).
  assert (W2 : without look r [bs "Ff"] d) by (apply (without_less _ _ _ _ _ W); intros ? [<-|[]]; cbn; auto).
  intro K; destruct K.
  - eapply ki_push; eauto using inherits_other, flags_other.
  - eapply ki_radio; eauto using inherits_other, flags_other.
  - eapply ki_check; eauto using inherits_other, flags_other.
  - eapply ki_text; eauto using inherits_other, flags_other.
  - eapply ki_combo; eauto using inherits_other, flags_other.
  - eapply ki_list; eauto using inherits_other, flags_other.
  - eapply ki_sig; eauto using inherits_other, flags_other.
  - eapply ki_none; eauto using inherits_other, flags_other.
Qed.

(** ** Kinds *)
Lemma kind_found look d k : kind_is look d k -> exists n, forall fuel, (n <= fuel)%nat -> field_type fuel look (ODict d) = Ok k.
Proof.
  assert (B : forall z t, inherits look (bs "FT") d (Some (OName t)) -> flags_in look d z -> exists n, forall fuel, (n <= fuel)%nat ->
     find_key_parent fuel look (bs "FT") d = Ok (Some (OName t)) /\ exists o, flags_of fuel look d = Ok o /\ z = match o with None => 0 | Some x => x end).
  { intros z t H F. destruct (inherits_found _ _ _ _ H) as (n & N). destruct (flags_found _ _ _ F) as (m & M). exists (n + m)%nat. intros fuel L.
    split; [apply N; lia|]. destruct (M fuel ltac:(lia)) as (o & E & Z0 & _). eauto. }
  assert (P : forall z, (Z.land z f_push =? f_push) = has_flag z Pushbutton) by (intro z; apply (has_code z Pushbutton)).
  assert (R : forall z, (Z.land z f_radio =? f_radio) = has_flag z Radio) by (intro z; apply (has_code z Radio)).
  assert (C : forall z, (Z.land z f_combo =? f_combo) = has_flag z Combo) by (intro z; apply (has_code z Combo)).
  intros [z H F X|z H F X Y|z H F X Y|H|z H F X|z H F X|H|H].
  1-3, 5-6: destruct (B z _ H F) as (n & N); exists n; intros fuel L; destruct (N fuel L) as (E & o & E2 & Z0);
    unfold field_type; cbn [as_dict bind]; rewrite E; cbn [bind]; change (beq (bs "Btn") (bs "Btn")) with true; change (beq (bs "Ch") (bs "Btn")) with false;
    change (beq (bs "Ch") (bs "Tx")) with false; change (beq (bs "Ch") (bs "Ch")) with true; cbv iota; rewrite E2; cbn [bind]; rewrite <- Z0, ?P, ?R, ?C, ?X, ?Y; reflexivity.
  all: destruct (inherits_found _ _ _ _ H) as (n & N); exists n; intros fuel L; unfold field_type; cbn [as_dict bind]; rewrite (N fuel L); reflexivity.
Qed.

(** ** New fields *)
Lemma changed_refl h r : changed_only h h r. Proof. intros q _; reflexivity. Qed.
Lemma changed_set h h' r o : changed_only h h' r -> changed_only h (PageModel.set r o h') r.
Proof. intros C q N. rewrite set_other by exact N. apply C, N. Qed.
Lemma same_refl ks d : same_but ks d d. Proof. intros k _; reflexivity. Qed.
Lemma same_add ks d d' k v : DictProofs.sorted d' -> In k ks -> same_but ks d d' -> same_but ks d (add_key k v d').
Proof.
  intros S' I H q N. rewrite get_added by exact S'. destruct (beq q k) eqn:E; [apply beq_eq in E; subst q; contradiction|]. apply H, N.
Qed.
Lemma inherits_own h d k v : get_key k d = Some v -> (forall n g, v <> ORef n g) -> inherits h k d (Some v).
Proof. intros. apply inh_here, own_entry; assumption. Qed.
Lemma inherits_absent h d k : get_key k d = None -> get_key (bs "Parent") d = None -> inherits h k d None.
Proof.
  intros K P. apply inh_none; intros v E; apply dict_find_entry in E; unfold dict_find in E; [rewrite K in E|rewrite P in E]; discriminate.
Qed.
Lemma inherits_up h d k p x : get_key k d = None -> entry h d (bs "Parent") (ODict p) -> inherits h k p x -> inherits h k d x.
Proof. intros K E H. apply inh_up with p; [|exact E|exact H]. intros v F. apply dict_find_entry in F. unfold dict_find in F. rewrite K in F. discriminate. Qed.
Lemma flags_up h d p z : get_key (bs "Ff") d = None -> entry h d (bs "Parent") (ODict p) -> flags_in h p z -> flags_in h d z.
Proof. intros K E [z' H|H]; [apply fl_num|apply fl_none]; eapply inherits_up; eauto. Qed.
Lemma kind_up h d p k : get_key (bs "FT") d = None -> get_key (bs "Ff") d = None -> entry h d (bs "Parent") (ODict p) -> kind_is h p k -> kind_is h d k.
Proof.
  intros K K2 E H; destruct H.
  - eapply ki_push; eauto using inherits_up, flags_up.
  - eapply ki_radio; eauto using inherits_up, flags_up.
  - eapply ki_check; eauto using inherits_up, flags_up.
  - eapply ki_text; eauto using inherits_up, flags_up.
  - eapply ki_combo; eauto using inherits_up, flags_up.
  - eapply ki_list; eauto using inherits_up, flags_up.
  - eapply ki_sig; eauto using inherits_up, flags_up.
  - eapply ki_none; eauto using inherits_up, flags_up.
Qed.
Ltac keys := cbn [In new_keys]; auto 10.

Lemma new_root h r d k : at_dict h r d -> get_key (bs "Ff") d = None -> get_key (bs "Parent") d = None -> k <> KUnknown ->
  made h r d k (fun fuel => new_field fuel h r k None).
Proof.
  intros A NF NP NK. pose proof (proj2 A) as SD.
  set (ft := fun n => PageModel.set r (Some (ODict (add_key (bs "FT") (OName n) d))) h).
  assert (AF : forall n, at_dict (ft n) r (add_key (bs "FT") (OName n) d)) by (intro n; apply set_at, A).
  assert (KF : forall n, set_key h r (bs "FT") (OName n) = Ok (ft n)) by (intro n; apply set_key_at, A).
  assert (CF : forall n, changed_only h (ft n) r) by (intro n; apply changed_set, changed_refl).
  assert (SF : forall n, DictProofs.sorted (add_key (bs "FT") (OName n) d)) by (intro n; apply dict_add_sorted, SD).
  assert (BF : forall n, same_but new_keys d (add_key (bs "FT") (OName n) d)) by (intro n; apply same_add; [exact SD|keys|apply same_refl]).
  assert (GF : forall n, get_key (bs "FT") (add_key (bs "FT") (OName n) d) = Some (OName n)) by (intro n; rewrite get_added by exact SD; rewrite beq_refl; reflexivity).
  assert (GFf : forall n, get_key (bs "Ff") (add_key (bs "FT") (OName n) d) = None) by (intro n; rewrite get_added by exact SD; exact NF).
  assert (GFp : forall n, get_key (bs "Parent") (add_key (bs "FT") (OName n) d) = None) by (intro n; rewrite get_added by exact SD; exact NP).
  set (ff := fun n z => PageModel.set r (Some (ODict (add_key (bs "Ff") (ONum z) (add_key (bs "FT") (OName n) d)))) (ft n)).
  assert (AFF : forall n z, at_dict (ff n z) r (add_key (bs "Ff") (ONum z) (add_key (bs "FT") (OName n) d))) by (intros n z; apply set_at, AF).
  assert (KFF : forall n z, set_key (ft n) r (bs "Ff") (ONum z) = Ok (ff n z)) by (intros n z; apply set_key_at, AF).
  assert (CFF : forall n z, changed_only h (ff n z) r) by (intros n z; apply changed_set, CF).
  assert (SFF : forall n z, DictProofs.sorted (add_key (bs "Ff") (ONum z) (add_key (bs "FT") (OName n) d))) by (intros n z; apply dict_add_sorted, SF).
  assert (BFF : forall n z, same_but new_keys d (add_key (bs "Ff") (ONum z) (add_key (bs "FT") (OName n) d))) by (intros n z; apply same_add; [apply SF|keys|apply BF]).
  assert (GT : forall n z, get_key (bs "FT") (add_key (bs "Ff") (ONum z) (add_key (bs "FT") (OName n) d)) = Some (OName n))
    by (intros n z; rewrite get_added by apply SF; apply GF).
  assert (GZ : forall n z, get_key (bs "Ff") (add_key (bs "Ff") (ONum z) (add_key (bs "FT") (OName n) d)) = Some (ONum z))
    by (intros n z; rewrite get_added by apply SF; rewrite beq_refl; reflexivity).
  assert (TT : forall n hh dd, get_key (bs "FT") dd = Some (OName n) -> inherits hh (bs "FT") dd (Some (OName n))) by (intros n hh dd G; apply inherits_own; [exact G|discriminate]).
  destruct k; try congruence.
  - (* push *) destruct (set_flag_at (ff (bs "Btn") f_push) r _ f_push Pushbutton true (AFF _ _) (own_flags _ _ _ (GZ _ _))) as (n & N).
    exists n. do 2 eexists. split; [intros fuel L; unfold new_field, init_field; rewrite KF; cbn [bind]; rewrite KFF; cbn [bind]; apply (N fuel L)|].
    split; [apply set_at, AFF|]. split; [|split; [apply changed_set, CFF|apply same_add; [apply SFF|keys|apply BFF]]].
    eapply ki_push; [apply TT; rewrite get_added by apply SFF; apply GT|apply own_flags; rewrite get_added by apply SFF; rewrite beq_refl; reflexivity|vm_compute; reflexivity].
  - (* check *) exists 0%nat. do 2 eexists. split; [intros fuel L; unfold new_field, init_field; rewrite KF; reflexivity|].
    split; [apply AF|]. split; [|split; [apply CF|apply BF]]. apply ki_check with 0; [apply TT, GF|apply fl_none, inherits_absent; [apply GFf|apply GFp]|reflexivity|reflexivity].
  - (* radio *) exists 0%nat. do 2 eexists. split; [intros fuel L; unfold new_field, init_field; rewrite KF; cbn [bind]; rewrite KFF; reflexivity|].
    split; [apply AFF|]. split; [|split; [apply CFF|apply BFF]]. eapply ki_radio; [apply TT, GT|apply own_flags, GZ|reflexivity|reflexivity].
  - (* text *) destruct (has_key (bs "DS") (add_key (bs "FT") (OName (bs "Tx")) d)) eqn:HD.
    + exists 0%nat. do 2 eexists. split; [intros fuel L; unfold new_field, init_field; rewrite KF; cbn [bind]; unfold dict_at; rewrite (proj1 (AF _)); cbn [bind]; rewrite HD; reflexivity|].
      split; [apply AF|]. split; [|split; [apply CF|apply BF]]. apply ki_text, TT, GF.
    + exists 0%nat. do 2 eexists. split; [intros fuel L; unfold new_field, init_field; rewrite KF; cbn [bind]; unfold dict_at; rewrite (proj1 (AF _)); cbn [bind]; rewrite HD; apply set_key_at, AF|].
      split; [apply set_at, AF|]. split; [|split; [apply changed_set, CF|apply same_add; [apply SF|keys|apply BF]]]. apply ki_text, TT. rewrite get_added by apply SF. apply GF.
  - (* combo *) destruct (set_flag_at (ff (bs "Ch") f_combo) r _ f_combo Combo true (AFF _ _) (own_flags _ _ _ (GZ _ _))) as (n & N).
    exists n. do 2 eexists. split; [intros fuel L; unfold new_field, init_field; rewrite KF; cbn [bind]; rewrite KFF; cbn [bind]; apply (N fuel L)|].
    split; [apply set_at, AFF|]. split; [|split; [apply changed_set, CFF|apply same_add; [apply SFF|keys|apply BFF]]].
    eapply ki_combo; [apply TT; rewrite get_added by apply SFF; apply GT|apply own_flags; rewrite get_added by apply SFF; rewrite beq_refl; reflexivity|vm_compute; reflexivity].
  - (* list *) destruct (set_flag_at (ft (bs "Ch")) r _ 0 Combo false (AF _) (fl_none _ _ (inherits_absent _ _ _ (GFf _) (GFp _)))) as (n & N).
    exists n. do 2 eexists. split; [intros fuel L; unfold new_field, init_field; rewrite KF; cbn [bind]; apply (N fuel L)|].
    split; [apply set_at, AF|]. split; [|split; [apply changed_set, CF|apply same_add; [apply SF|keys|apply BF]]].
    eapply ki_list; [apply TT; rewrite get_added by apply SF; apply GF|apply own_flags; rewrite get_added by apply SF; rewrite beq_refl; reflexivity|vm_compute; reflexivity].
  - (* signature *) exists 0%nat. do 2 eexists. split; [intros fuel L; unfold new_field, init_field; rewrite KF; reflexivity|].
    split; [apply AF|]. split; [|split; [apply CF|apply BF]]. apply ki_sig, TT, GF.
Qed.
Lemma new_child h r d p dp k : at_dict h r d -> get_key (bs "FT") d = None -> get_key (bs "Ff") d = None -> h p = Some (ODict dp) -> p <> r ->
  kind_is h dp k -> without h r kind_keys dp -> k <> KUnknown -> made h r d k (fun fuel => new_field fuel h r k (Some p)).
Proof.
  intros A NT NF HP PR KP W NK. pose proof (proj2 A) as SD. set (d1 := add_key (bs "Parent") (to_ref p) d). set (h1 := PageModel.set r (Some (ODict d1)) h).
  assert (A1 : at_dict h1 r d1) by (apply set_at, A). assert (S1 : DictProofs.sorted d1) by (apply dict_add_sorted, SD).
  assert (C1 : changed_only h h1 r) by (apply changed_set, changed_refl).
  assert (B1 : same_but new_keys d d1) by (apply same_add; [exact SD|keys|apply same_refl]).
  assert (K1 : set_key h r (bs "Parent") (to_ref p) = Ok h1) by (apply set_key_at, A).
  assert (GP : get_key (bs "Parent") d1 = Some (to_ref p)) by (unfold d1; rewrite get_added by exact SD; rewrite beq_refl; reflexivity).
  assert (GT : get_key (bs "FT") d1 = None) by (unfold d1; rewrite get_added by exact SD; exact NT).
  assert (GF : get_key (bs "Ff") d1 = None) by (unfold d1; rewrite get_added by exact SD; exact NF).
  assert (EP : forall hh dd, changed_only h hh r -> get_key (bs "Parent") dd = Some (to_ref p) -> entry hh dd (bs "Parent") (ODict dp)).
  { intros hh dd C G. apply dict_find_entry. unfold dict_find. rewrite G. unfold to_ref. destruct p as [n g]. cbn [fst snd]. rewrite (C _ PR). exact HP. }
  assert (KK : forall hh, changed_only h hh r -> kind_is hh dp k) by (intros hh C; eapply kind_other; [exact C|exact W|exact KP]).
  (* with a flag of its own *)
  assert (FLAG : forall f on z, flags_in h1 d1 z -> exists n, (forall fuel, (n <= fuel)%nat -> set_flag fuel h1 r (code_of f) on = Ok (PageModel.set r (Some (ODict (add_key (bs "Ff") (ONum (flip z (position f - 1) on)) d1))) h1)) /\
    at_dict (PageModel.set r (Some (ODict (add_key (bs "Ff") (ONum (flip z (position f - 1) on)) d1))) h1) r (add_key (bs "Ff") (ONum (flip z (position f - 1) on)) d1) /\
    (forall t, inherits (PageModel.set r (Some (ODict (add_key (bs "Ff") (ONum (flip z (position f - 1) on)) d1))) h1) (bs "FT") dp (Some t) ->
       inherits (PageModel.set r (Some (ODict (add_key (bs "Ff") (ONum (flip z (position f - 1) on)) d1))) h1) (bs "FT") (add_key (bs "Ff") (ONum (flip z (position f - 1) on)) d1) (Some t)) /\
    flags_in (PageModel.set r (Some (ODict (add_key (bs "Ff") (ONum (flip z (position f - 1) on)) d1))) h1) (add_key (bs "Ff") (ONum (flip z (position f - 1) on)) d1) (flip z (position f - 1) on) /\
    changed_only h (PageModel.set r (Some (ODict (add_key (bs "Ff") (ONum (flip z (position f - 1) on)) d1))) h1) r /\
    same_but new_keys d (add_key (bs "Ff") (ONum (flip z (position f - 1) on)) d1)).
  { intros f on z F. destruct (set_flag_at h1 r d1 z f on A1 F) as (n & N). exists n. split; [exact N|]. split; [apply set_at, A1|].
    assert (C2 : changed_only h (PageModel.set r (Some (ODict (add_key (bs "Ff") (ONum (flip z (position f - 1) on)) d1))) h1) r) by (apply changed_set, C1).
    split; [|split; [|split; [exact C2|apply same_add; [exact S1|keys|exact B1]]]].
    - intros t H. eapply inherits_up; [|apply EP; [exact C2|]|exact H]; (rewrite get_added by exact S1); assumption.
    - apply own_flags. rewrite get_added by exact S1. rewrite beq_refl. reflexivity. }
  assert (FL1 : forall z, flags_in h1 dp z -> flags_in h1 d1 z) by (intros z F; eapply flags_up; [exact GF|apply EP; [exact C1|exact GP]|exact F]).
  assert (HB : forall z f on, has_flag (flip z (position f - 1) on) f = on).
  { intros z f on. unfold has_flag. rewrite flip_bits by apply position_pos. rewrite Z.eqb_refl. reflexivity. }
  destruct k; try congruence.
  - pose proof (KK h1 C1) as K. inversion K as [z T F X| | | | | | |]; subst. destruct (FLAG Pushbutton true z (FL1 z F)) as (n & N & A2 & T2 & F2 & C2 & B2).
    exists n. do 2 eexists. split; [intros fuel L; unfold new_field; rewrite K1; cbn [bind]; apply (N fuel L)|]. split; [exact A2|]. split; [|split; [exact C2|exact B2]].
    pose proof (KK _ C2) as KX. inversion KX; subst. eapply ki_push; [apply T2; eassumption|exact F2|apply HB].
  - exists 0%nat. do 2 eexists. split; [intros fuel L; unfold new_field; rewrite K1; reflexivity|]. split; [exact A1|]. split; [|split; [exact C1|exact B1]].
    eapply kind_up; [exact GT|exact GF|apply EP; [exact C1|exact GP]|apply KK, C1].
  - exists 0%nat. do 2 eexists. split; [intros fuel L; unfold new_field; rewrite K1; reflexivity|]. split; [exact A1|]. split; [|split; [exact C1|exact B1]].
    eapply kind_up; [exact GT|exact GF|apply EP; [exact C1|exact GP]|apply KK, C1].
  - destruct (has_key (bs "DS") d1) eqn:HD.
    + exists 0%nat. do 2 eexists. split; [intros fuel L; unfold new_field; rewrite K1; cbn [bind]; unfold dict_at; rewrite (proj1 A1); cbn [bind]; rewrite HD; reflexivity|].
      split; [exact A1|]. split; [|split; [exact C1|exact B1]]. eapply kind_up; [exact GT|exact GF|apply EP; [exact C1|exact GP]|apply KK, C1].
    + exists 0%nat. do 2 eexists. split; [intros fuel L; unfold new_field; rewrite K1; cbn [bind]; unfold dict_at; rewrite (proj1 A1); cbn [bind]; rewrite HD; apply set_key_at, A1|].
      split; [apply set_at, A1|]. assert (C2 : forall o, changed_only h (PageModel.set r o h1) r) by (intro o; apply changed_set, C1).
      split; [|split; [apply C2|apply same_add; [exact S1|keys|exact B1]]].
      eapply kind_up; [| |apply EP; [apply C2|]|apply KK, C2]; rewrite get_added by exact S1; assumption.
  - pose proof (KK h1 C1) as K. inversion K as [| | | |z T F X| | |]; subst. destruct (FLAG Combo true z (FL1 z F)) as (n & N & A2 & T2 & F2 & C2 & B2).
    exists n. do 2 eexists. split; [intros fuel L; unfold new_field; rewrite K1; cbn [bind]; apply (N fuel L)|]. split; [exact A2|]. split; [|split; [exact C2|exact B2]].
    pose proof (KK _ C2) as KX. inversion KX; subst. eapply ki_combo; [apply T2; eassumption|exact F2|apply HB].
  - pose proof (KK h1 C1) as K. inversion K as [| | | | |z T F X| |]; subst. destruct (FLAG Combo false z (FL1 z F)) as (n & N & A2 & T2 & F2 & C2 & B2).
    exists n. do 2 eexists. split; [intros fuel L; unfold new_field; rewrite K1; cbn [bind]; apply (N fuel L)|]. split; [exact A2|]. split; [|split; [exact C2|exact B2]].
    pose proof (KK _ C2) as KX. inversion KX; subst. eapply ki_list; [apply T2; eassumption|exact F2|apply HB].
  - exists 0%nat. do 2 eexists. split; [intros fuel L; unfold new_field; rewrite K1; reflexivity|]. split; [exact A1|]. split; [|split; [exact C1|exact B1]].
    eapply kind_up; [exact GT|exact GF|apply EP; [exact C1|exact GP]|apply KK, C1].
Qed.

(** ** Names *)
Lemma own_name_det d t : own_name d t -> match get_key (bs "T") d with None => t = [] | Some (OStr _ s) => t = [s] | _ => False end.
Proof. intros [d' E|d' hx s E]; rewrite E; reflexivity. Qed.
Definition append_name (full n : list Z) : list Z := match full with [] => n | _ => full ++ 46 :: n end.
Lemma full_name_lineage h o ns : lineage h o ns -> forall esc, exists n, forall fuel full, (n <= fuel)%nat ->
  full_name_of fuel h o esc full = Ok (fold_left append_name (map (fun s => if esc then escape_name s else s) ns) full).
Proof.
  induction 1 as [d t N O|d p ns t E _ IH O]; intro esc; pose proof (own_name_det d t O) as G.
  - exists 1%nat. intros [|f] full L; [lia|]. cbn [full_name_of as_dict bind].
    destruct (dict_find h (bs "Parent") d) as [v|] eqn:F; [apply dict_find_entry in F; destruct (N _ F)|]. cbn [bind].
    destruct (get_key (bs "T") d) as [[]|]; try contradiction; subst t; reflexivity.
  - destruct (IH esc) as (n & IH'). exists (S n). intros [|f] full L; [lia|]. cbn [full_name_of as_dict bind]. apply dict_find_entry in E. rewrite E, (IH' f full) by lia.
    cbn [bind]. rewrite map_app, fold_left_app. destruct (get_key (bs "T") d) as [[]|]; try contradiction; subst t; reflexivity.
Qed.
Fixpoint join (l : list (list Z)) : list Z := match l with [] => [] | [n] => n | n :: t => n ++ 46 :: join t end.
Lemma join_dotted l : dotted l (join l).
Proof. induction l as [|n [|m t] IH]; cbn; try constructor. exact IH. Qed.
Lemma dotted_join l x : dotted l x -> x = join l.
Proof. induction 1; cbn; try reflexivity. cbn in IHdotted. rewrite IHdotted. reflexivity. Qed.
Lemma join_snoc l n : l <> [] -> join (l ++ [n]) = join l ++ 46 :: n.
Proof.
  induction l as [|a t IH]; intro N; [congruence|]. destruct t as [|b t]; [reflexivity|].
  change (join ((a :: b :: t) ++ [n])) with (a ++ 46 :: join ((b :: t) ++ [n])). rewrite IH by discriminate.
  change (join (a :: b :: t)) with (a ++ 46 :: join (b :: t)). rewrite <- app_assoc. reflexivity.
Qed.
Lemma join_empty l : Forall (fun n : list Z => n <> []) l -> join l = [] -> l = [].
Proof. intros F E. destruct l as [|a [|b t]]; [reflexivity| |]; inversion F; subst; cbn in E; [congruence|]. destruct a; [congruence|discriminate]. Qed.
Lemma fold_join l : forall a, Forall (fun n : list Z => n <> []) (a ++ l) -> fold_left append_name l (join a) = join (a ++ l).
Proof.
  induction l as [|n l IH]; intros a F; [rewrite app_nil_r; reflexivity|]. cbn [fold_left].
  assert (E : append_name (join a) n = join (a ++ [n])).
  { destruct a as [|x a']; [reflexivity|]. rewrite join_snoc by discriminate. unfold append_name. destruct (join (x :: a')) eqn:J; [|reflexivity].
    apply join_empty in J; [discriminate|]. rewrite Forall_app in F. apply F. }
  rewrite E, IH; rewrite <- app_assoc; [reflexivity|exact F].
Qed.
Lemma doubled_escape n : doubled n (escape_name n).
Proof. induction n as [|c n IH]; [constructor|]. cbn. destruct (Z.eqb_spec c 46); [subst; constructor; exact IH|constructor; assumption]. Qed.
Lemma doubled_det n x : doubled n x -> x = escape_name n.
Proof. induction 1 as [|a b _ ->|c a b N _ ->]; cbn; [reflexivity|reflexivity|]. destruct (Z.eqb_spec c 46); [contradiction|reflexivity]. Qed.
(** Reading a name back: what precedes the first single period, and what follows it *)
Fixpoint split_name (x : list Z) : list Z * option (list Z) :=
  match x with
  | [] => ([], None)
  | c :: t =>
    if c =? 46 then
      match t with
      | c' :: t' => if c' =? 46 then let (n, r) := split_name t' in (46 :: n, r) else ([], Some t)
      | [] => ([], Some [])
      end
    else let (n, r) := split_name t in (c :: n, r)
  end.
Lemma split_last n : split_name (escape_name n) = (n, None).
Proof.
  induction n as [|c n IH]; [reflexivity|]. cbn [escape_name flat_map]. fold (escape_name n). destruct (Z.eqb_spec c 46) as [->|N]; cbn [app split_name].
  - change (46 =? 46) with true. cbv iota. rewrite IH. reflexivity.
  - rewrite (proj2 (Z.eqb_neq c 46) N), IH. reflexivity.
Qed.
Lemma split_more n m : ~ starts_with_dot m -> m <> [] -> split_name (escape_name n ++ 46 :: m) = (n, Some m).
Proof.
  intros D NE. induction n as [|c n IH].
  - cbn. destruct m as [|x m]; [congruence|]. destruct (Z.eqb_spec x 46); [subst; destruct D; exists m; reflexivity|reflexivity].
  - cbn [escape_name flat_map]. fold (escape_name n). destruct (Z.eqb_spec c 46) as [->|N]; cbn [app split_name].
    + change (46 =? 46) with true. cbv iota. rewrite IH. reflexivity.
    + rewrite (proj2 (Z.eqb_neq c 46) N), IH. reflexivity.
Qed.
Lemma escape_starts n : n <> [] -> ~ starts_with_dot n -> escape_name n <> [] /\ ~ starts_with_dot (escape_name n).
Proof.
  intros NE D. destruct n as [|c n]; [congruence|]. cbn [escape_name flat_map]. destruct (Z.eqb_spec c 46) as [->|N]; [destruct D; eexists; reflexivity|].
  split; [discriminate|]. intros [t E]. injection E as E _. congruence.
Qed.
Lemma join_starts n t : n <> [] -> ~ starts_with_dot n -> join (escape_name n :: t) <> [] /\ ~ starts_with_dot (join (escape_name n :: t)).
Proof.
  intros NE D. destruct (escape_starts n NE D) as [A B]. destruct t as [|m t]; [split; assumption|]. cbn [join].
  destruct (escape_name n) as [|c x]; [congruence|]. split; [discriminate|]. intros [y E]. apply B. injection E as -> _. exists x. reflexivity.
Qed.
Lemma join_escaped_inj l : forall m, Forall (fun n => n <> [] /\ ~ starts_with_dot n) l -> Forall (fun n => n <> [] /\ ~ starts_with_dot n) m ->
  join (map escape_name l) = join (map escape_name m) -> l = m.
Proof.
  assert (EMPTY : forall a t, Forall (fun n => n <> [] /\ ~ starts_with_dot n) (a :: t) -> join (map escape_name (a :: t)) <> []).
  { intros a t F. inversion F as [|? ? [A B] _]; subst. cbn [map]. apply join_starts; assumption. }
  assert (SPLIT : forall a t, Forall (fun n => n <> [] /\ ~ starts_with_dot n) (a :: t) ->
     split_name (join (map escape_name (a :: t))) = (a, match t with [] => None | _ => Some (join (map escape_name t)) end)).
  { intros a [|b t] F; [apply split_last|]. inversion F as [|? ? _ F2]; inversion F2 as [|? ? [A B] _]; subst. cbn [map join].
    destruct (join_starts b (map escape_name t) A B) as [J1 J2]. apply split_more; assumption. }
  induction l as [|a l IH]; intros [|b m] FL FM E.
  - reflexivity.
  - exfalso. apply (EMPTY b m FM). symmetry. exact E.
  - exfalso. apply (EMPTY a l FL). exact E.
  - pose proof (SPLIT a l FL) as SA. pose proof (SPLIT b m FM) as SB. rewrite E, SB in SA. injection SA as -> ER. f_equal.
    destruct l as [|a2 l], m as [|b2 m]; try discriminate; [reflexivity|]. injection ER as ER. apply IH; [exact (Forall_inv_tail FL)|exact (Forall_inv_tail FM)|symmetry; exact ER].
Qed.
Lemma escape_plain n : ~ In 46 n -> escape_name n = n.
Proof.
  induction n as [|c n IH]; intro N; [reflexivity|]. cbn [escape_name flat_map]. fold (escape_name n). rewrite IH by (intro; apply N; right; assumption).
  destruct (Z.eqb_spec c 46); [subst; destruct N; left; reflexivity|reflexivity].
Qed.
Lemma join_plain_inj l m : Forall (fun n => n <> [] /\ ~ In 46 n) l -> Forall (fun n => n <> [] /\ ~ In 46 n) m -> join l = join m -> l = m.
Proof.
  intros FL FM E. assert (P : forall l, Forall (fun n => n <> [] /\ ~ In 46 n) l -> map escape_name l = l /\ Forall (fun n => n <> [] /\ ~ starts_with_dot n) l).
  { clear. induction 1 as [|n l [A B] _ [I1 I2]]; [split; [reflexivity|constructor]|]. cbn [map]. rewrite I1, escape_plain by exact B. split; [reflexivity|].
    constructor; [|exact I2]. split; [exact A|]. intros [t ->]. apply B. left. reflexivity. }
  destruct (P l FL) as [EL GL], (P m FM) as [EM GM]. apply join_escaped_inj; [exact GL|exact GM|]. rewrite EL, EM. exact E.
Qed.
Lemma full_name_cycle h r d fuel : h r = Some (ODict d) -> get_key (bs "Parent") d = Some (to_ref r) -> forall esc full, full_name_of fuel h (ODict d) esc full = Fuel.
Proof.
  intros E P. induction fuel as [|f IH]; intros esc full; [reflexivity|]. cbn [full_name_of as_dict bind]. unfold dict_find. rewrite P. unfold to_ref.
  destruct r as [n g]. cbn [fst snd]. rewrite E, IH. reflexivity.
Qed.

(** ** Changing entries that a lookup does not use *)
Lemma find_change h h' r ks d d' k : changed_only h h' r -> same_but ks d d' -> ~ In k ks -> get_key k d <> Some (ORef (fst r) (snd r)) ->
  dict_find h' k d' = dict_find h k d.
Proof.
  intros C B N G. rewrite <- (entry_other h h' r d k C G). unfold dict_find. rewrite (B k N). reflexivity.
Qed.
Lemma inherits_change h h' r ks d d' k x : changed_only h h' r -> same_but ks d d' -> ~ In k ks -> ~ In (bs "Parent") ks -> without h r [k] d ->
  inherits h k d x -> inherits h' k d' x.
Proof.
  intros C B N NP W H. assert (WK : get_key k d <> Some (ORef (fst r) (snd r))) by (apply W; [apply ab_here|cbn; auto]).
  assert (WP : get_key (bs "Parent") d <> Some (ORef (fst r) (snd r))) by (apply W; [apply ab_here|cbn; auto]).
  destruct H as [d v E|d p x M E H|d M P].
  - apply inh_here, dict_find_entry. rewrite (find_change h h' r ks d d' k) by assumption. apply dict_find_entry, E.
  - apply inh_up with p.
    + apply (proj1 (find_none h' d' k)). rewrite (find_change h h' r ks d d' k) by assumption. apply find_none, M.
    + apply dict_find_entry. rewrite (find_change h h' r ks d d') by assumption. apply dict_find_entry, E.
    + apply (inherits_other h h' r k p x C H). intros a j AB IJ. apply W; [|exact IJ]. eapply ab_up; eauto.
  - apply inh_none.
    + apply (proj1 (find_none h' d' k)). rewrite (find_change h h' r ks d d' k) by assumption. apply find_none, M.
    + intros p X. apply dict_find_entry in X. rewrite (find_change h h' r ks d d') in X by assumption. apply dict_find_entry in X. destruct (P _ X).
Qed.
Lemma flags_change h h' r ks d d' z : changed_only h h' r -> same_but ks d d' -> ~ In (bs "Ff") ks -> ~ In (bs "Parent") ks -> without h r [bs "Ff"] d ->
  flags_in h d z -> flags_in h' d' z.
Proof. intros C B N NP W [z' H|H]; [apply fl_num|apply fl_none]; eapply inherits_change; eauto. Qed.

(** ** Choice fields *)
Lemma has_get k (d : list (list Z * obj)) : has_key k d = match get_key k d with Some _ => true | None => false end. Proof. reflexivity. Qed.
Lemma opt_found h r its : options h r its -> exists d, at_dict h r d /\ exists o, opt_array h r = Ok o /\
  match o with None => its = [] /\ get_key (bs "Opt") d = None | Some l => Forall2 shown l its end.
Proof.
  assert (U : forall d, at_dict h r d -> opt_array h r = match dict_find h (bs "Opt") d with None => Ok None | Some (OArr l) => Ok (Some l) | Some _ => Err EInvalidDataType end)
    by (intros d A; unfold opt_array, dict_at; rewrite (proj1 A); reflexivity).
  intros [d A G|d l its' A G F|d n g l its' A G E F]; exists d; (split; [exact A|]); rewrite (U d A); unfold dict_find; rewrite G.
  - exists None. auto.
  - exists (Some l). auto.
  - rewrite E. exists (Some l). auto.
Qed.
Lemma put_options h r its l its' : options h r its -> (exists o, opt_array h r = Ok (Some o)) -> Forall2 shown l its' ->
  exists h' d d', put_found h r (bs "Opt") (OArr l) = Ok h' /\ options h' r its' /\ at_dict h r d /\ at_dict h' r d' /\ same_but [bs "Opt"] d d' /\
    (forall q, q <> r -> ~ opt_object h r q -> h' q = h q).
Proof.
  intros H (o & OA) F. destruct H as [d A G|d l0 its0 A G F0|d n g l0 its0 A G E F0].
  - unfold opt_array, dict_at in OA. rewrite (proj1 A) in OA. cbn [bind] in OA. unfold dict_find in OA. rewrite G in OA. discriminate.
  - exists (PageModel.set r (Some (ODict (add_key (bs "Opt") (OArr l) d))) h), d, (add_key (bs "Opt") (OArr l) d).
    split; [unfold put_found, dict_at; rewrite (proj1 A); cbn [bind]; rewrite G; apply set_key_at, A|].
    split; [eapply op_direct; [apply set_at, A| |exact F]; rewrite get_added by apply A; rewrite beq_refl; reflexivity|]. split; [exact A|]. split; [apply set_at, A|].
    split; [apply same_add; [apply A|cbn; auto|apply same_refl]|]. intros q N _. apply set_other, N.
  - assert (NR : (n, g) <> r) by (intro X; rewrite X, (proj1 A) in E; discriminate).
    exists (PageModel.set (n, g) (Some (OArr l)) h), d, d. split; [unfold put_found, dict_at; rewrite (proj1 A); cbn [bind]; rewrite G; reflexivity|].
    assert (A' : at_dict (PageModel.set (n, g) (Some (OArr l)) h) r d) by (split; [rewrite set_other by congruence; apply A|apply A]).
    split; [eapply op_indirect; [exact A'|exact G|apply set_same|exact F]|]. split; [exact A|]. split; [exact A'|]. split; [apply same_refl|].
    intros q N Q. apply set_other. intros ->. apply Q. exists d. split; [apply A|exact G].
Qed.
Lemma Forall2_cut {A B} (R : A -> B -> Prop) i : forall l m, Forall2 R l m -> Forall2 R (firstn i l ++ skipn (S i) l) (firstn i m ++ skipn (S i) m).
Proof.
  induction i as [|i IH]; intros l m F; destruct F as [|x y l m H F]; cbn; try constructor; try exact F; [exact H|]. apply IH, F.
Qed.
Lemma Forall2_len {A B} (R : A -> B -> Prop) l m : Forall2 R l m -> length l = length m. Proof. induction 1; cbn; congruence. Qed.
Lemma Forall2_nth {A B} (R : A -> B -> Prop) l m i y : Forall2 R l m -> nth_error m i = Some y -> exists x, nth_error l i = Some x /\ R x y.
Proof. intro F; revert i. induction F as [|a b l m H F IH]; intros [|i] E; cbn in *; try discriminate; [injection E as <-; eauto|apply IH, E]. Qed.
Lemma insert_good h r its v t : options h r its -> exists h' d d', insert_item h r v t = Ok h' /\ options h' r (its ++ [item_value v t]) /\
  at_dict h r d /\ at_dict h' r d' /\ same_but [bs "Opt"] d d' /\ (forall q, q <> r -> ~ opt_object h r q -> h' q = h q).
Proof.
  intro H. destruct (opt_found h r its H) as (d & A & o & OA & P). unfold insert_item. rewrite OA. cbn [bind].
  assert (SH : shown (match t with Some t => OArr [OStr false v; OStr false t] | None => OStr false v end) (item_value v t)) by (destruct t; constructor).
  destruct o as [l|].
  - apply (put_options h r its (l ++ [_]) _ H); [eauto|]. apply Forall2_app; [exact P|]. constructor; [exact SH|constructor].
  - destruct P as [-> G]. exists (PageModel.set r (Some (ODict (add_key (bs "Opt") (OArr [match t with Some t => OArr [OStr false v; OStr false t] | None => OStr false v end]) d))) h). do 2 eexists.
    split; [apply set_key_at, A|]. split; [eapply op_direct; [apply set_at, A|rewrite get_added by apply A; rewrite beq_refl; reflexivity|constructor; [exact SH|constructor]]|].
    split; [exact A|]. split; [apply set_at, A|]. split; [apply same_add; [apply A|cbn; auto|apply same_refl]|]. intros q N _. apply set_other, N.
Qed.
Lemma remove_good h r its i : options h r its -> (i < length its)%nat -> exists h' d d', remove_item h r i = Ok h' /\ options h' r (firstn i its ++ skipn (S i) its) /\
  at_dict h r d /\ at_dict h' r d' /\ same_but [bs "Opt"] d d' /\ (forall q, q <> r -> ~ opt_object h r q -> h' q = h q).
Proof.
  intros H L. destruct (opt_found h r its H) as (d & A & o & OA & P). unfold remove_item. rewrite OA. cbn [bind]. destruct o as [l|]; [|destruct P as [-> _]; cbn in L; lia].
  rewrite (proj2 (Nat.leb_gt (length l) i)) by (rewrite (Forall2_len _ _ _ P); exact L). apply (put_options h r its _ _ H); [eauto|]. apply Forall2_cut, P.
Qed.
Lemma remove_beyond h r its i : options h r its -> (length its <= i)%nat -> remove_item h r i = Err EValueOutOfRange \/ (its = [] /\ remove_item h r i = Ok h).
Proof.
  intros H L. destruct (opt_found h r its H) as (d & A & o & OA & P). unfold remove_item. rewrite OA. cbn [bind]. destruct o as [l|]; [|right; split; [apply P|reflexivity]].
  rewrite (proj2 (Nat.leb_le (length l) i)) by (rewrite (Forall2_len _ _ _ P); exact L). left. reflexivity.
Qed.
Lemma shown_parts h o v t : shown o (v, t) -> item_part h 0 o = Ok v /\ item_part h 1 o = Ok t.
Proof. intro S0. inversion S0; subst; split; reflexivity. Qed.
Lemma count_good h r its : options h r its -> item_count h r = Ok (Z.of_nat (length its)).
Proof.
  intro H. destruct (opt_found h r its H) as (d & A & o & OA & P). unfold item_count. rewrite OA. cbn [bind]. destruct o as [l|]; [rewrite (Forall2_len _ _ _ P)|destruct P as [-> _]]; reflexivity.
Qed.
Lemma get_good h r its i v t : options h r its -> nth_error its i = Some (v, t) ->
  get_item h r (Z.of_nat i) = Ok v /\ get_display h r (Z.of_nat i) = Ok (Some t).
Proof.
  intros H E. destruct (opt_found h r its H) as (d & A & o & OA & P). assert (L : (i < length its)%nat) by (apply nth_error_Some; congruence).
  destruct o as [l|]; [|destruct P as [-> _]; cbn in L; lia]. destruct (Forall2_nth _ _ _ _ _ P E) as (x & X & SX). destruct (shown_parts h x v t SX) as [P0 P1].
  unfold get_item, get_display. rewrite OA. cbn [bind]. rewrite (proj2 (Z.leb_gt _ _)) by (rewrite (Forall2_len _ _ _ P); lia).
  rewrite (proj2 (Z.ltb_ge _ _)) by lia. cbn [orb]. rewrite Nat2Z.id, X, P0, P1. split; reflexivity.
Qed.
Lemma get_beyond h r its i : options h r its -> Z.of_nat (length its) <= i -> exists e, get_item h r i = Err e.
Proof.
  intros H L. destruct (opt_found h r its H) as (d & A & o & OA & P). unfold get_item. rewrite OA. cbn [bind]. destruct o as [l|]; [|eexists; reflexivity].
  rewrite (proj2 (Z.leb_le _ _)) by (rewrite (Forall2_len _ _ _ P); lia). eexists; reflexivity.
Qed.
Lemma display_out h r its i : options h r its -> i < 0 \/ Z.of_nat (length its) <= i -> get_display h r i = Err EValueOutOfRange \/ (its = [] /\ get_display h r i = Ok None).
Proof.
  intros H L. destruct (opt_found h r its H) as (d & A & o & OA & P). unfold get_display. rewrite OA. cbn [bind]. destruct o as [l|]; [|right; split; [apply P|reflexivity]].
  left. destruct (Z.ltb_spec i 0); [reflexivity|]. rewrite (proj2 (Z.leb_le _ _)) by (rewrite (Forall2_len _ _ _ P); lia). reflexivity.
Qed.
Lemma find_first h v its n l : first_with v its n -> Forall2 shown l its -> forall i, find_value h v l i = Ok (i + Z.of_nat n).
Proof.
  intro W. revert l. induction W as [t its|x its n NE W IH]; intros l F i; inversion F as [|o ? l' ? S0 F']; subst.
  - inversion S0; subst; cbn [find_value must_find_at nth_error bind as_text]; rewrite beq_refl; f_equal; lia.
  - destruct x as [v' t']. cbn [fst] in NE. assert (B : beq v' v = false) by (destruct (beq v' v) eqn:B; [apply beq_eq in B; contradiction|reflexivity]).
    inversion S0; subst; cbn [find_value must_find_at nth_error bind as_text]; rewrite B, (IH _ F'); f_equal; lia.
Qed.
Lemma find_absent h v its l : (forall x, In x its -> fst x <> v) -> Forall2 shown l its -> forall i, find_value h v l i = Ok (-1).
Proof.
  intros N F. induction F as [|o x l its S0 F IH]; intro i; [reflexivity|]. pose proof (N x (or_introl eq_refl)) as NE. destruct x as [v' t']. cbn [fst] in NE.
  assert (B : beq v' v = false) by (destruct (beq v' v) eqn:B; [apply beq_eq in B; contradiction|reflexivity]).
  inversion S0; subst; cbn [find_value must_find_at nth_error bind as_text]; rewrite B; apply IH; intros y I; apply N; right; exact I.
Qed.
Lemma first_exists v its i t : nth_error its i = Some (v, t) -> exists n, first_with v its n /\ (n <= i)%nat.
Proof.
  revert i. induction its as [|[v' t'] its IH]; intros [|i] E; try discriminate.
  - injection E as -> ->. exists 0%nat. split; [constructor|lia].
  - destruct (list_eq_dec Z.eq_dec v' v) as [->|N]; [exists 0%nat; split; [constructor|lia]|]. destruct (IH i E) as (n & W & L). exists (S n). split; [constructor; assumption|lia].
Qed.
Lemma selected_good h r its d i v t : options h r its -> h r = Some (ODict d) -> get_key (bs "Kids") d = None -> nth_error its i = Some (v, t) -> Z.of_nat i < 2 ^ 32 ->
  exists h' n, set_selected h r (Z.of_nat i) = Ok h' /\ changed_only h h' r /\ options h' r its /\ first_with v its n /\ get_selected h' r = Ok (Z.of_nat n) /\
    exists d', at_dict h' r d' /\ same_but [bs "V"] d d' /\ get_key (bs "V") d' = Some (OStr false v).
Proof.
  intros H HR K E L. assert (A : at_dict h r d) by (destruct H as [d0 A _|d0 l its A _ _|d0 n g l its A _ _ _]; rewrite (proj1 A) in HR; injection HR as <-; exact A).
  assert (T : terminal d = Ok tt) by (unfold terminal; rewrite has_get, K; reflexivity). destruct (get_good h r its i v t H E) as [GI _].
  set (d' := add_key (bs "V") (OStr false v) d). set (h' := PageModel.set r (Some (ODict d')) h).
  assert (A' : at_dict h' r d') by (apply set_at, A). assert (B : same_but [bs "V"] d d') by (apply same_add; [apply A|cbn; auto|apply same_refl]).
  assert (GO : get_key (bs "Opt") d' = get_key (bs "Opt") d) by (apply B; intros [X|[]]; discriminate).
  assert (H' : options h' r its).
  { destruct H as [d0 A0 G|d0 l its A0 G F|d0 n g l its A0 G E0 F]; rewrite (proj1 A0) in HR; injection HR as ->.
    - apply op_none with d'; [exact A'|congruence].
    - apply op_direct with d' l; [exact A'|congruence|exact F].
    - apply op_indirect with d' n g l; [exact A'|congruence| |exact F]. unfold h'. rewrite set_other; [exact E0|]. intro X. rewrite X, (proj1 A0) in E0. discriminate. }
  destruct (first_exists v its i t E) as (n & W & _). exists h', n.
  split; [unfold set_selected, dict_at; rewrite (proj1 A); cbn [bind]; rewrite T; cbn [bind]; unfold u32; rewrite Z.mod_small by lia; rewrite GI; cbn [bind]; apply set_key_at, A|].
  split; [apply changed_set, changed_refl|]. split; [exact H'|]. split; [exact W|].
  assert (GV : get_key (bs "V") d' = Some (OStr false v)) by (unfold d'; rewrite get_added by apply A; rewrite beq_refl; reflexivity).
  split; [|exists d'; auto]. destruct (opt_found h' r its H') as (d2 & A2 & o & OA & P). unfold get_selected, dict_at. rewrite (proj1 A'). cbn [bind].
  replace (terminal d') with (Ok tt); [cbn [bind]|]. 2:{ unfold terminal. rewrite has_get, (B (bs "Kids")), K; [reflexivity|]. intros [X|[]]; discriminate. }
  unfold dict_find. rewrite GV, OA. cbn [bind]. destruct o as [l|]; [rewrite (find_first h' v its n l W P); f_equal; lia|]. destruct P as [-> _]. inversion W.
Qed.
Lemma select_out h r its d i : options h r its -> h r = Some (ODict d) -> Z.of_nat (length its) <= u32 i -> exists e, set_selected h r i = Err e.
Proof.
  intros H HR L. unfold set_selected, dict_at. rewrite HR. cbn [bind]. unfold terminal. destruct (has_key (bs "Kids") d); [eexists; reflexivity|]. cbn [bind].
  destruct (get_beyond h r its _ H L) as (e & ->). eexists; reflexivity.
Qed.
Lemma selected_none h r its d hx v : options h r its -> h r = Some (ODict d) -> get_key (bs "Kids") d = None ->
  get_key (bs "V") d = Some (OStr hx v) -> (forall x, In x its -> fst x <> v) -> get_selected h r = Ok (-1).
Proof.
  intros H HR K V N. destruct (opt_found h r its H) as (d2 & A2 & o & OA & P). unfold get_selected, dict_at. rewrite HR. cbn [bind]. unfold terminal. rewrite has_get, K. cbn [bind].
  unfold dict_find. rewrite V, OA. cbn [bind]. destruct o as [l|]; [apply (find_absent h v its l N P)|reflexivity].
Qed.

(** ** Text fields *)
Lemma text_good h r d z s o : at_dict h r d -> get_key (bs "Kids") d = None -> flags_in h d z -> without h r [bs "Ff"] d ->
  inherits h (bs "MaxLen") d o -> (o = None \/ exists m, o = Some (ONum m)) ->
  exists n h', (forall fuel, (n <= fuel)%nat -> set_text fuel h r (Some s) = Ok h' /\ get_text fuel h' r = Ok (Some s)) /\ changed_only h h' r /\
    exists d', at_dict h' r d' /\ same_but [text_key (has_flag z RichText)] d d' /\ get_key (text_key (has_flag z RichText)) d' = Some (OStr false s).
Proof.
  intros A K F W M OM. set (rich := has_flag z RichText). set (d' := add_key (text_key rich) (OStr false s) d). set (h' := PageModel.set r (Some (ODict d')) h).
  assert (C : changed_only h h' r) by (apply changed_set, changed_refl). assert (A' : at_dict h' r d') by (apply set_at, A).
  assert (B : same_but [text_key rich] d d') by (apply same_add; [apply A|cbn; auto|apply same_refl]).
  assert (NI : forall k, In k [bs "Ff"; bs "Parent"; bs "Kids"] -> ~ In k [text_key rich]) by (intros k I [X|[]]; cbn in I; destruct rich; destruct I as [<-|[<-|[<-|[]]]]; discriminate).
  assert (F' : flags_in h' d' z) by (apply (flags_change h h' r [text_key rich] d d' z C B); [apply NI; cbn; auto|apply NI; cbn; auto|exact W|exact F]).
  assert (RICH : forall h d, at_dict h r d -> flags_in h d z -> exists n, forall fuel, (n <= fuel)%nat -> is_rich fuel h r = Ok rich).
  { intros h0 d0 A0 F0. destruct (get_flag_in h0 r d0 z RichText false A0 F0) as (n & N). exists n. intros fuel L. unfold is_rich. destruct (N fuel L) as [E|[I E]]; [exact E|].
    change f_rich with (code_of RichText). rewrite E. f_equal. unfold rich. destruct F0 as [z F0|_]; [|reflexivity].
    destruct (inherits_found _ _ _ _ I) as (n1 & N1). destruct (inherits_found _ _ _ _ F0) as (n2 & N2). specialize (N1 (n1 + n2)%nat ltac:(lia)). rewrite (N2 (n1 + n2)%nat ltac:(lia)) in N1. discriminate. }
  destruct (RICH h d A F) as (n1 & R1). destruct (RICH h' d' A' F') as (n2 & R2). destruct (inherits_found _ _ _ _ M) as (n3 & M3).
  assert (GV : get_key (text_key rich) d' = Some (OStr false s)) by (unfold d'; rewrite get_added by apply A; rewrite beq_refl; reflexivity).
  destruct (inherits_found h' (text_key rich) d' _ (inherits_own h' d' _ _ GV ltac:(discriminate))) as (n4 & V4).
  exists (n1 + n2 + n3 + n4)%nat, h'. split; [|split; [exact C|exists d'; auto]]. intros fuel L. split.
  - unfold set_text, dict_at. rewrite (proj1 A). cbn [bind]. unfold terminal. rewrite has_get, K. cbn [bind]. rewrite R1 by lia. cbn [bind].
    unfold get_max_len, dict_at. rewrite (proj1 A). cbn [bind]. rewrite M3 by lia. cbn [bind].
    replace (match o with None => -1 | Some (ONum _) => -1 | Some _ => 0 end) with (-1) by (destruct OM as [->|[m ->]]; reflexivity). cbn [Z.eqb negb andb]. apply set_key_at, A.
  - unfold get_text, dict_at. rewrite (proj1 A'). cbn [bind]. unfold terminal. rewrite has_get; rewrite (B (bs "Kids")) by (apply NI; cbn; auto). rewrite K. cbn [bind]. rewrite R2 by lia. cbn [bind].
    rewrite V4 by lia. reflexivity.
Qed.
Lemma max_len_numbers h r d m : at_dict h r d -> inherits h (bs "MaxLen") d (Some (ONum m)) -> exists n, forall fuel, (n <= fuel)%nat -> get_max_len fuel h r = Ok (-1).
Proof.
  intros A M. destruct (inherits_found _ _ _ _ M) as (n & N). exists n. intros fuel L. unfold get_max_len, dict_at. rewrite (proj1 A). cbn [bind]. rewrite N by exact L. reflexivity.
Qed.
Lemma enabled_opposite h r d z f on : at_dict h r d -> flags_in h d z ->
  exists n h', forall fuel, (n <= fuel)%nat -> set_flag fuel h r (code_of f) (negb on) = Ok h' /\ get_flag fuel h' r (code_of f) true = Ok (negb on).
Proof.
  intros A F. destruct (set_flag_at h r d z f (negb on) A F) as (n & N). exists (S n). eexists. intros fuel L. split; [apply (N fuel); lia|].
  destruct fuel as [|fuel]; [lia|]. rewrite (get_flag_own fuel _ r _ (flip z (position f - 1) (negb on)) f true (set_at _ _ _ _ _ A));
    [|rewrite get_added by apply A; rewrite beq_refl; reflexivity].
  f_equal. unfold has_flag. rewrite flip_bits by apply position_pos. rewrite Z.eqb_refl. reflexivity.
Qed.

(** ** Check boxes, highlighting, actions *)
Lemma checked_good h r d on : at_dict h r d -> exists h' d', set_checked h r on = Ok h' /\ is_checked h' r = Ok on /\ changed_only h h' r /\
  at_dict h' r d' /\ same_but [bs "V"; bs "AS"] d d' /\ get_key (bs "AS") d' = get_key (bs "V") d'.
Proof.
  intro A. set (v := OName (if on then bs "Yes" else bs "Off")). assert (S1 : DictProofs.sorted (add_key (bs "V") v d)) by (apply dict_add_sorted, A).
  exists (PageModel.set r (Some (ODict (add_key (bs "AS") v (add_key (bs "V") v d)))) (PageModel.set r (Some (ODict (add_key (bs "V") v d))) h)), (add_key (bs "AS") v (add_key (bs "V") v d)).
  assert (A1 : at_dict (PageModel.set r (Some (ODict (add_key (bs "V") v d))) h) r (add_key (bs "V") v d)) by (apply set_at, A).
  assert (A2 : at_dict (PageModel.set r (Some (ODict (add_key (bs "AS") v (add_key (bs "V") v d)))) (PageModel.set r (Some (ODict (add_key (bs "V") v d))) h)) r (add_key (bs "AS") v (add_key (bs "V") v d)))
    by (split; [apply set_same|apply dict_add_sorted, S1]).
  assert (GV : get_key (bs "V") (add_key (bs "AS") v (add_key (bs "V") v d)) = Some v) by (rewrite get_added by exact S1; rewrite get_added by apply A; reflexivity).
  assert (GS : get_key (bs "AS") (add_key (bs "AS") v (add_key (bs "V") v d)) = Some v) by (rewrite get_added by exact S1; rewrite beq_refl; reflexivity).
  split; [unfold set_checked; fold v; rewrite (set_key_at h r _ v d A); cbn [bind]; apply set_key_at, A1|].
  split; [unfold is_checked, dict_at; rewrite (proj1 A2); cbn [bind]; rewrite ?has_get; unfold dict_find; rewrite GV; unfold v; destruct on; reflexivity|].
  split; [apply changed_set, changed_set, changed_refl|]. split; [exact A2|]. split; [|congruence].
  apply same_add; [exact S1|cbn; auto|]. apply same_add; [apply A|cbn; auto|apply same_refl].
Qed.
Lemma mode_good h r d m : at_dict h r d -> m <> MUnknown -> exists h' d', set_mode h r m = Ok h' /\ get_mode h' r = Ok m /\ changed_only h h' r /\ at_dict h' r d' /\ same_but [bs "H"] d d'.
Proof.
  intros A N. assert (X : exists n, set_mode h r m = set_key h r (bs "H") (OName n) /\
    (if beq n (bs "N") then MNone else if beq n (bs "I") then MInvert else if beq n (bs "O") then MOutline else if beq n (bs "P") then MPush else MInvert) = m)
    by (destruct m; try congruence; eexists; (split; [reflexivity|reflexivity])).
  destruct X as (n & E & E2). rewrite E. do 2 eexists. split; [apply set_key_at, A|]. split; [|split; [apply changed_set, changed_refl|split; [apply set_at, A|apply same_add; [apply A|cbn; auto|apply same_refl]]]].
  assert (G : get_key (bs "H") (add_key (bs "H") (OName n) d) = Some (OName n)) by (rewrite get_added by apply A; rewrite beq_refl; reflexivity).
  unfold get_mode, dict_at. rewrite set_same. cbn [bind]. rewrite has_get; unfold dict_find. rewrite G. rewrite E2. reflexivity.
Qed.
Lemma actions_find h r aa : actions h r aa <-> exists d, at_dict h r d /\ DictProofs.sorted aa /\
  (dict_find h (bs "AA") d = Some (ODict aa) \/ (dict_find h (bs "AA") d = None /\ aa = [])).
Proof.
  split; intros (d & A & S0 & H); exists d; (split; [exact A|]); (split; [exact S0|]); (destruct H as [H|[H E]]; [left; apply dict_find_entry, H|right; split; [apply find_none, H|exact E]]).
Qed.
Lemma action_good h r aa t a : actions h r aa -> exists h' aa', set_action h r t a = Ok h' /\ actions h' r aa' /\
  get_key (trigger_name t) aa' = Some (to_ref a) /\ same_but [trigger_name t] aa aa'.
Proof.
  intro ACT. destruct (proj1 (actions_find h r aa) ACT) as (d & A & SA & AA). clear ACT. assert (NEW : forall aa, DictProofs.sorted aa -> get_key (trigger_name t) (add_key (trigger_name t) (to_ref a) aa) = Some (to_ref a) /\ same_but [trigger_name t] aa (add_key (trigger_name t) (to_ref a) aa)).
  { intros x SX. split; [rewrite get_added by exact SX; rewrite beq_refl; reflexivity|]. apply same_add; [exact SX|cbn; auto|apply same_refl]. }
  destruct (NEW aa SA) as [G B]. assert (SN : DictProofs.sorted (add_key (trigger_name t) (to_ref a) aa)) by (apply dict_add_sorted, SA).
  assert (OWN : forall x, DictProofs.sorted x -> actions (PageModel.set r (Some (ODict (add_key (bs "AA") (ODict x) d))) h) r x).
  { intros x SX. apply actions_find. exists (add_key (bs "AA") (ODict x) d). split; [apply set_at, A|]. split; [exact SX|]. left. unfold dict_find. rewrite get_added by apply A. rewrite beq_refl. reflexivity. }
  unfold set_action, dict_at. rewrite (proj1 A). cbn [bind]. destruct AA as [F|[F ->]]; rewrite F.
  - unfold put_found, dict_at. rewrite (proj1 A). cbn [bind]. unfold dict_find in F. destruct (get_key (bs "AA") d) as [v|] eqn:GD; [|discriminate].
    assert (CASES : (exists n g, v = ORef n g /\ h (n, g) = Some (ODict aa)) \/ (v = ODict aa)) by (destruct v; try (right; congruence); left; eauto).
    destruct CASES as [(n & g & -> & E)| ->].
    + destruct (list_eq_dec Z.eq_dec [n; g] [fst r; snd r]) as [EQ|NE].
      * injection EQ as -> ->. destruct r as [n g]. cbn [fst snd] in *. rewrite (proj1 A) in E. injection E as ->. do 2 eexists. split; [reflexivity|].
        split; [|split; [exact G|exact B]]. apply actions_find. exists (add_key (trigger_name t) (to_ref a) aa). split; [split; [apply set_same|exact SN]|]. split; [exact SN|]. left.
        unfold dict_find. destruct (NEW aa SA) as [_ B']. rewrite (B' (bs "AA")); [|intros [X|[]]; destruct t; discriminate]. rewrite GD. apply set_same.
      * do 2 eexists. split; [reflexivity|]. split; [|split; [exact G|exact B]]. apply actions_find. exists d. split; [split; [rewrite set_other; [apply A|]|apply A]|].
        { intro X. apply NE. rewrite X. reflexivity. }
        split; [exact SN|]. left. unfold dict_find. rewrite GD. apply set_same.
    + do 2 eexists. split; [apply set_key_at, A|]. split; [apply OWN, SN|]. split; [exact G|exact B].
  - do 2 eexists. split; [apply set_key_at, A|]. split; [apply (OWN (add_key (trigger_name t) (to_ref a) [])), dict_add_sorted, SA|]. split; [exact G|exact B].
Qed.
