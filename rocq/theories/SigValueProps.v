(** Properties C160 and C161: the values of signature fields *)
From Coq Require Import String.
From Verif Require Import Base TokModel OwnModel ListModel PageModel DateModel LinkSpec AnnotSpec SigValueModel SigValueSpec SigValueProofs.
From Verif Require DateProps.
Local Open Scope Z_scope.

(** ** C160: a field says what was last set *)

Theorem C160_history f c h m d k l :
  h f = Some (ODict d) -> absent d (bs "V") -> h c = Some (ODict k) -> f <> c -> fst f < m -> fst c < m ->
  let s := run f c (mk_st h m None) l in
  let x := fold_left say l None in
  says (heap_of s) f c x /\ reopen s f = Ok s /\
  forall a, get_text s f a = Ok (match x with Some y => s_texts y a | None => None end).
Proof.
  intros F D C N Hf Hc s x. pose proof (run_inv f c l _ _ (fresh_inv f c h m d k F D C N Hf Hc)) as I. fold s x in I.
  split; [exact (inv_says f c s x I)|]. split; [exact (inv_reopen f c s x I)|]. intros a. exact (inv_get f c s x a I).
Qed.
Print Assumptions C160_history.

(** An operation raises only for want of a value, and then it changes nothing *)
Theorem C160_raises f c h m d k l o :
  h f = Some (ODict d) -> absent d (bs "V") -> h c = Some (ODict k) -> f <> c -> fst f < m -> fst c < m ->
  let s := run f c (mk_st h m None) l in
  (snd (step f c s o) = Ok tt <-> say (fold_left say l None) o <> None) /\
  (snd (step f c s o) <> Ok tt -> snd (step f c s o) = Err EInvalidHandle /\ fst (step f c s o) = s).
Proof.
  intros F D C N Hf Hc s. pose proof (run_inv f c l _ _ (fresh_inv f c h m d k F D C N Hf Hc)) as I. fold s in I.
  destruct (step_inv f c s _ o I) as [_ E]. destruct (fold_left say l None) as [x|].
  - rewrite E. split; [|intros X; destruct (X eq_refl)]. split; [|reflexivity]. intros _. destruct o; discriminate.
  - rewrite E. assert (V : value_of s = None) by (destruct I as (_ & _ & _ & d0 & k0 & _ & _ & V & _); exact V).
    destruct o as [a t|t| |a b t k1 r|p]; cbn [needs_value say];
      try (split; [split; [discriminate|reflexivity]|intros X; destruct (X eq_refl)]);
      split; try (split; [discriminate|intros X; destruct (X eq_refl)]); intros _; split; try reflexivity; cbn [step].
    + unfold set_text. rewrite (change_none s f _ V). reflexivity.
    + unfold set_creator. rewrite (change_none s f _ V). reflexivity.
    + unfold certify. rewrite (change_none s f _ V). reflexivity.
Qed.
Print Assumptions C160_raises.

(** Dates *)
Theorem C160_date f c h m d k l secs off :
  h f = Some (ODict d) -> absent d (bs "V") -> h c = Some (ODict k) -> f <> c -> fst f < m -> fst c < m ->
  -62167219200 <= secs + 60 * match off with Some o => o | None => 0 end <= 253402300799 ->
  match off with Some o => Z.abs o <= 3599 | None => True end ->
  let s := run f c (mk_st h m None) l in
  snd (set_date s f (Some (mk_date secs off))) = Ok tt ->
  get_date (fst (set_date s f (Some (mk_date secs off)))) f = Ok (Some (mk_date secs off)).
Proof.
  intros F D C N Hf Hc R1 R2 s. unfold set_date. cbn [option_map]. set (t := date_text false (mk_date secs off)).
  pose proof (run_inv f c l _ _ (fresh_inv f c h m d k F D C N Hf Hc)) as I. fold s in I.
  destruct (step_inv f c s _ (SetText ADate (Some t)) I) as [J E]. cbn [step] in J, E. rewrite E.
  destruct (fold_left say l None) as [x|]; [|discriminate]. intros _. unfold get_date. rewrite (inv_get f c _ _ ADate J). cbn [bind told say s_texts attr_eqb].
  unfold t. rewrite (proj1 (DateProps.C17_round_trip_partial secs off R1 R2)). reflexivity.
Qed.
Print Assumptions C160_date.

(** Nothing else of the document changes, whatever the field and its value are *)
Theorem C160_frame f c s l q : q <> f -> q <> c -> fst q < next_of s -> value_of s <> Some (At q) ->
  (forall r, value_of s = Some (At r) -> r = f \/ r = c \/ next_of s <= fst r) ->
  heap_of (run f c s l) q = heap_of s q.
Proof.
  intros N1 N2 L NV V. apply (run_kept f c (next_of s) l s); [|exact (conj N1 (conj N2 L))]. split; [lia|].
  intros r E (A & B & X). destruct (V r E) as [Y|[Y|Y]]; [exact (A Y)|exact (B Y)|lia].
Qed.
Print Assumptions C160_frame.

Definition doc0 : heap := fun r =>
  if ref_eqb r (1, 0) then Some (ODict [(bs "Type", OName (bs "Catalog"))])
  else if ref_eqb r (2, 0) then Some (ODict [(bs "FT", OName (bs "Sig")); (bs "T", OStr false (bs "approval"))])
  else None.
Example C160_case :
  let s := run (2, 0) (1, 0) (mk_st doc0 3 None)
    [SetText AName (Some (bs "nobody")); Prepare (bs "Adobe.PPKLite") (bs "ETSI.CAdES.detached") (bs "Sig") (OStr true [0]) (OArr []);
     SetText AName (Some (bs "first")); SetText AReason (Some (bs "approved")); SetText AName (Some (bs "Ann")); SetText AReason None;
     SetCreator (Some (bs "maker")); Certify 2; SetText ALocation (Some (bs "here"))] in
  get_text s (2, 0) AName = Ok (Some (bs "Ann")) /\ get_text s (2, 0) AReason = Ok None /\ get_text s (2, 0) ALocation = Ok (Some (bs "here")) /\
  heap_of s (3, 0) = Some (ODict
    [(bs "ByteRange", OArr []); (bs "Contents", OStr true [0]); (bs "Filter", OName (bs "Adobe.PPKLite")); (bs "Location", OStr false (bs "here"));
     (bs "Name", OStr false (bs "Ann")); (bs "Prop_Build", ODict [(bs "App", ODict [(bs "Name", OStr false (bs "maker"))])]);
     (bs "Reference", OArr [ODict [(bs "TransformMethod", OName (bs "DocMDP"));
        (bs "TransformParams", ODict [(bs "P", ONum 2); (bs "Type", OName (bs "TransformParams")); (bs "V", OName (bs "1.2"))]);
        (bs "Type", OName (bs "SigRef"))]]);
     (bs "SubFilter", OName (bs "ETSI.CAdES.detached")); (bs "Type", OName (bs "Sig"))]) /\
  heap_of s (1, 0) = Some (ODict [(bs "Perms", ODict [(bs "DocMDP", ORef 3 0)]); (bs "Type", OName (bs "Catalog"))]) /\
  snd (step (2, 0) (1, 0) (mk_st doc0 3 None) (SetText AName (Some (bs "nobody")))) = Err EInvalidHandle.
Proof. repeat split; vm_compute; reflexivity. Qed.
Example C160_date_case :
  let s := fst (set_date (run (2, 0) (1, 0) (mk_st doc0 3 None) [Ensure]) (2, 0) (Some (mk_date 1637064000 (Some 60)))) in
  get_text s (2, 0) ADate = Ok (Some (bs "D:20211116130000+01'00'")) /\ get_date s (2, 0) = Ok (Some (mk_date 1637064000 (Some 60))).
Proof. split; vm_compute; reflexivity. Qed.

(** ** C161: fields that were read, and what is lost *)

(** A text that was set is got, wherever the value of the field is, and the other texts stay *)
Theorem C161_read f s a t s' :
  set_text s f a (Some t) = (s', Ok tt) -> get_text s' f a = Ok (Some t) /\ forall b, b <> a -> get_text s' f b = get_text s f b.
Proof.
  intros E. split; [|intros b N; exact (text_others f s a t s' b N E)]. revert E.
  unfold set_text, change, get_text. destruct (value_of s) as [p|] eqn:V; [|discriminate].
  destruct (value_dict (heap_of s) f p) as [v|e| |] eqn:D; try discriminate. intros E. apply pair_equal_spec in E as [<- _].
  cbn [value_of heap_of]. rewrite ?V. destruct p as [|r].
  - cbn [value_dict] in D. destruct (heap_of s f) as [[| | | | | | | |d]|] eqn:F; unfold dict_at in D; rewrite F in D; try discriminate D. cbn [bind] in D.
    cbn [value_dict put_dict]. rewrite F. unfold dict_at. rewrite set_same. cbn [bind]. unfold get_key. rewrite get_added. keys. cbn [bind].
    unfold dict_find, get_key. rewrite get_added, beq_refl. reflexivity.
  - cbn [value_dict put_dict]. unfold dict_at. rewrite set_same. cbn [bind]. unfold dict_find, get_key. rewrite get_added, beq_refl. reflexivity.
Qed.
Print Assumptions C161_read.

(** A field that refers to an object that is not there can be signed: it gets a new value, which is not the object that is missing *)
Theorem C161_dangling h m f d n g a b t k r : h f = Some (ODict d) -> dict_get (bs "V") d = Some (ORef n g) -> h (n, g) = None -> fst f < m ->
  exists s v, reopen (mk_st h m None) f = Ok s /\ (forall x, get_text s f x = Ok None) /\ snd (prepare s f a b t k r) = Ok tt /\
  (exists d', heap_of (fst (prepare s f a b t k r)) f = Some (ODict d') /\ dict_get (bs "V") d' = Some (ORef m 0)) /\
  heap_of (fst (prepare s f a b t k r)) (m, 0) = Some (ODict v) /\ dict_get (bs "Filter") v = Some (OName a) /\
  ((n, g) <> (m, 0) -> heap_of (fst (prepare s f a b t k r)) (n, g) = None).
Proof.
  intros F D Q L. exists (mk_st h m None). eexists. assert (N : f <> (m, 0)) by (intros ->; cbn in L; lia).
  assert (NF : (n, g) <> f) by (intros X; rewrite X in Q; congruence).
  split; [unfold reopen, find_value, dict_at; cbn [heap_of next_of]; rewrite F; cbn [bind]; unfold get_key; rewrite D, Q; reflexivity|]. split; [reflexivity|].
  unfold prepare, ensure, create. cbn [value_of heap_of next_of fst snd]. unfold set_key. unfold dict_at. rewrite !(set_other (m, 0) _ _ f) by exact N. rewrite F. cbn [bind].
  unfold change. cbn [value_of heap_of next_of value_dict]. unfold dict_at. rewrite !(set_other f _ _ (m, 0)) by (intros X; apply N; congruence).
  rewrite set_same. cbn [put_dict fst snd heap_of]. split; [reflexivity|]. split.
  - eexists. rewrite set_other by exact N. rewrite set_same. split; [reflexivity|]. rewrite get_added. reflexivity.
  - rewrite set_same. split; [reflexivity|]. split; [rewrite ?get_added; reflexivity|]. intros M. rewrite !set_other; assumption.
Qed.
Print Assumptions C161_dangling.

(** 7.3.7: an entry whose value is null is as one that is absent; such a field cannot be signed *)
Theorem C161_null_refuted : exists h f d s, h f = Some (ODict d) /\ dict_get (bs "V") d = Some ONull /\ reopen (mk_st h 3 None) f = Ok s /\
  forall a b t k r, prepare s f a b t k r = (s, Err EInvalidDataType).
Proof.
  exists (fun r => if ref_eqb r (2, 0) then Some (ODict [(bs "FT", OName (bs "Sig")); (bs "V", ONull)]) else None), (2, 0).
  eexists. eexists. split; [reflexivity|]. split; [reflexivity|]. split; [reflexivity|]. intros a b t k r. reflexivity.
Qed.
Print Assumptions C161_null_refuted.

(** Certifying a signature whose value is inside of the field raises, and the references that it had are gone *)
Theorem C161_direct_refuted : exists h f c s v, reopen (mk_st h 3 None) f = Ok s /\
  value_dict (heap_of s) f Own = Ok v /\ (exists l, dict_get (bs "Reference") v = Some (OArr l) /\ l <> []) /\
  forall p, snd (certify s f c p) = Err EInvalidDataType /\
    (forall v', value_dict (heap_of (fst (certify s f c p))) f Own = Ok v' -> absent v' (bs "Reference")) /\
    heap_of (fst (certify s f c p)) (3, 0) <> None.
Proof.
  exists (fun r => if ref_eqb r (2, 0) then Some (ODict [(bs "FT", OName (bs "Sig")); (bs "V", ODict [(bs "Reference", OArr [ODict []])])]) else None), (2, 0), (1, 0).
  eexists. eexists. split; [reflexivity|]. split; [reflexivity|]. split; [exists [ODict []]; split; [reflexivity|discriminate]|].
  intros p. split; [reflexivity|]. split; [|vm_compute; discriminate]. intros v' E. vm_compute in E. injection E as <-. reflexivity.
Qed.
Print Assumptions C161_direct_refuted.

(** The two objects that a certification makes are referred to by nothing *)
Theorem C161_orphans_refuted p : let s := run (2, 0) (1, 0) (mk_st doc0 3 None) [Ensure; Certify p] in
  heap_of s (4, 0) <> None /\ heap_of s (5, 0) <> None /\ ~ referred (heap_of s) (4, 0) /\ ~ referred (heap_of s) (5, 0).
Proof.
  intros s.
  assert (H : forall q o, heap_of s q = Some o -> ~ refers o (4, 0) /\ ~ refers o (5, 0)).
  { intros q o. pose (v0 := [(bs "Type", OName (bs "Sig"))]).
    change (heap_of s q) with (set (3, 0) (Some (ODict (add_key (bs "Reference") (OArr [ODict (sig_ref p)]) v0)))
      (set (1, 0) (Some (ODict [(bs "Perms", ODict [(bs "DocMDP", ORef 3 0)]); (bs "Type", OName (bs "Catalog"))]))
      (set (5, 0) (Some (ODict (params p))) (set (4, 0) (Some (ODict (sig_ref p))) (set (3, 0) (Some (ODict v0))
      (set (2, 0) (Some (ODict [(bs "FT", OName (bs "Sig")); (bs "T", OStr false (bs "approval")); (bs "V", ORef 3 0)]))
      (set (3, 0) (Some (ODict v0)) doc0)))))) q).
    unfold set, doc0.
    repeat match goal with |- (if ?b then _ else _) = _ -> _ =>
      destruct b; [intros E; injection E as <-; cbn; split; intros X; repeat (destruct X as [X|X]); try discriminate X; try exact X|] end.
    discriminate. }
  split; [vm_compute; discriminate|]. split; [vm_compute; discriminate|].
  split; intros (q & o & Q & R); destruct (H q o Q) as [A B]; [exact (A R)|exact (B R)].
Qed.
Print Assumptions C161_orphans_refuted.

(** Other permissions that the catalog grants are lost *)
Theorem C161_permissions_refuted : exists h k m, h (1, 0) = Some (ODict k) /\ entry_is h k (bs "Perms") (ODict m) /\ dict_get (bs "UR3") m = Some (ORef 9 0) /\
  forall p, let s := run (2, 0) (1, 0) (mk_st h 10 None) [Ensure; Certify p] in
  snd (step (2, 0) (1, 0) (run (2, 0) (1, 0) (mk_st h 10 None) [Ensure]) (Certify p)) = Ok tt /\
  forall k' m', heap_of s (1, 0) = Some (ODict k') -> entry_is (heap_of s) k' (bs "Perms") (ODict m') -> absent m' (bs "UR3").
Proof.
  exists (fun r => if ref_eqb r (1, 0) then Some (ODict [(bs "Perms", ODict [(bs "UR3", ORef 9 0)])]) else doc0 r).
  eexists. eexists. split; [reflexivity|]. split; [apply entry_of; [reflexivity|discriminate]|]. split; [reflexivity|].
  intros p s. split; [reflexivity|]. intros k' m' K (e & G & W). vm_compute in K. injection K as <-. vm_compute in G. injection G as <-.
  inversion W; subst. reflexivity.
Qed.
Print Assumptions C161_permissions_refuted.

(** What the dictionary of the build held besides the application is lost when the application is set *)
Theorem C161_build_refuted : exists h v b s t, reopen (mk_st h 4 None) (2, 0) = Ok s /\ h (3, 0) = Some (ODict v) /\
  entry_is h v (bs "Prop_Build") (ODict b) /\ dict_get (bs "Filter") b <> None /\
  forall v' b', heap_of (fst (set_creator s (2, 0) (Some t))) (3, 0) = Some (ODict v') ->
    entry_is (heap_of (fst (set_creator s (2, 0) (Some t)))) v' (bs "Prop_Build") (ODict b') -> absent b' (bs "Filter").
Proof.
  exists (fun r => if ref_eqb r (2, 0) then Some (ODict [(bs "V", ORef 3 0)]) else if ref_eqb r (3, 0) then
    Some (ODict [(bs "Prop_Build", ODict [(bs "Filter", ODict [])])]) else None).
  eexists. eexists. eexists. exists (bs "maker"). split; [reflexivity|]. split; [reflexivity|]. split; [apply entry_of; [reflexivity|discriminate]|].
  split; [discriminate|]. intros v' b' K (e & G & W). vm_compute in K. injection K as <-. vm_compute in G. injection G as <-. inversion W; subst. reflexivity.
Qed.
Print Assumptions C161_build_refuted.

Example C161_case :
  let h := fun r : ref => if ref_eqb r (2, 0) then Some (ODict [(bs "V", ODict [(bs "Name", OStr false (bs "old")); (bs "Reason", OStr false (bs "why"))])]) else None in
  exists s, reopen (mk_st h 3 None) (2, 0) = Ok s /\ get_text s (2, 0) AName = Ok (Some (bs "old")) /\
    get_text (fst (set_text s (2, 0) AName (Some (bs "new")))) (2, 0) AName = Ok (Some (bs "new")) /\
    get_text (fst (set_text s (2, 0) AName (Some (bs "new")))) (2, 0) AReason = Ok (Some (bs "why")).
Proof. eexists. split; [reflexivity|]. repeat split; vm_compute; reflexivity. Qed.
