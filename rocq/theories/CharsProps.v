(** Properties C162 and C163: the appearance characteristics of widgets and the captions of buttons *)
From Coq Require Import String QArith.
From Verif Require Import Base TokModel OwnModel ListModel PageModel ColorModel LinkSpec CharsModel CharsSpec CharsProofs.
From Verif Require SigValueProofs.
Local Open Scope Z_scope.

(** ** C162: the characteristics are what was last set *)

Lemma start_inv w h m d : h w = Some (ODict d) -> absent d (bs "MK") -> fst w < m -> winv w m (mk_wst h m None) None.
Proof. intros W D L. split; [exact L|]. split; [cbn; lia|]. exists d. repeat split; assumption. Qed.

Theorem C162_history w h m d l : h w = Some (ODict d) -> absent d (bs "MK") -> fst w < m -> 
  let s := wrun w (mk_wst h m None) l in
  characteristics (w_heap s) w (fold_left note l None) /\ open_widget (w_heap s) (w_next s) w = Ok s /\
  (w_next s = m \/ w_next s = m + 1) /\ forall q, q <> w -> fst q < m -> w_heap s q = h q.
Proof.
  intros W D L s. pose proof (start_inv w h m d W D L) as I. pose proof (wrun_inv w m l _ _ I) as J. fold s in J.
  split; [exact (winv_says w m s _ J)|]. split; [exact (winv_open w m s _ J)|]. split.
  - destruct J as (_ & _ & d1 & _ & J). destruct (fold_left note l None) as [g|]; [right|left]; [destruct J as (v & _ & _ & _ & _ & X)|destruct J as (_ & _ & X)]; exact X.
  - intros q N Lq. apply (wrun_frame w m q N) with (x := None); [intros E; subst q; cbn in Lq; lia|exact I].
Qed.
Print Assumptions C162_history.

(** The getters; texts and arrays are no references *)
Theorem C162_getters fuel w h m d l t : h w = Some (ODict d) -> absent d (bs "MK") -> fst w < m -> Forall plain l ->
  let s := wrun w (mk_wst h m None) l in
  let o := of_trait (fold_left note l None) t in
  get_caption (S fuel) s w t = Ok (match o with Some (OStr _ x) => Some x | _ => None end) /\
  get_trait_color (S fuel) s w t = get_color o.
Proof.
  intros W D L P s o. pose proof (wrun_inv w m l _ _ (start_inv w h m d W D L)) as J. fold s in J.
  assert (X : find_trait (S fuel) s w t = Ok o) by (apply (winv_find fuel w m s _ t J), note_direct; [exact P|intros u; exact I]).
  unfold get_caption, get_trait_color. rewrite X. split; reflexivity.
Qed.
Print Assumptions C162_getters.

(** An operation raises exactly when what is set cannot be made *)
Theorem C162_raises w h m d l o : h w = Some (ODict d) -> absent d (bs "MK") -> fst w < m ->
  snd (wstep w (wrun w (mk_wst h m None) l) o) = Ok tt <-> match o with Put _ v => exists x, v = Ok x | Clear _ => True end.
Proof.
  intros W D L. pose proof (wrun_inv w m l _ _ (start_inv w h m d W D L)) as J. rewrite (proj2 (wstep_inv w m _ _ o J)).
  destruct o as [t [v|e| |]|t]; split; try discriminate; try reflexivity; try (intros _; exact I); try (intros [x E]; discriminate E). intros _. exists v. reflexivity.
Qed.
Print Assumptions C162_raises.

Definition page0 : heap := fun r => if ref_eqb r (2, 0) then Some (ODict [(bs "FT", OName (bs "Btn")); (bs "Subtype", OName (bs "Widget"))]) else None.
Example C162_case :
  let s := wrun (2, 0) (mk_wst page0 3 None)
    [Clear TCaption; Put TCaption (Ok (OStr false (bs "one"))); Put TBackground (Ok (OArr [ONum 1; ONum 0; ONum 0])); Put TRollover (Ok (OStr false (bs "over")));
     Put TCaption (Ok (OStr false (bs "two"))); Clear TRollover; Put TBorder (Err ECannotConvertColor)] in
  get_caption 5 s (2, 0) TCaption = Ok (Some (bs "two")) /\ get_caption 5 s (2, 0) TRollover = Ok None /\
  get_trait_color 5 s (2, 0) TBackground = rgb 1 0 0 /\
  w_heap s (3, 0) = Some (ODict [(bs "BG", OArr [ONum 1; ONum 0; ONum 0]); (bs "CA", OStr false (bs "two"))]) /\ w_heap s (4, 0) = None /\
  w_heap (wrun (2, 0) (mk_wst page0 3 None) [Clear TCaption]) (2, 0) = page0 (2, 0).
Proof. repeat split; vm_compute; reflexivity. Qed.

(** ** C163: widgets that were read, and buttons *)

(** A caption that was set is got, whether the characteristics are new, direct or indirect *)
Theorem C163_read fuel h m w s t x s' : open_widget h m w = Ok s -> button_set s (widget_of (FromWidget w)) t (Some x) = (s', Ok tt) ->
  button_get (S fuel) s' (widget_of (FromWidget w)) t = Ok (Some x).
Proof.
  intros _. unfold button_set, button_get, widget_of, put. destruct (get_or_create s w) as [[s1 p]|e| |] eqn:G; try discriminate.
  destruct (chars_dict (w_heap s1) w p) as [v|e| |] eqn:D; try discriminate. intros E. apply pair_equal_spec in E as [<- _].
  assert (C : w_chars s1 = Some p).
  { unfold get_or_create in G. destruct (w_chars s) as [p0|] eqn:C0; [apply ok_inj in G; apply pair_equal_spec in G as [<- <-]; exact C0|].
    apply ChainProofs.bind_ok in G as (h1 & _ & G). apply ok_inj in G. apply pair_equal_spec in G as [<- <-]. reflexivity. }
  unfold get_caption, find_trait. cbn [w_chars w_heap]. rewrite C. destruct p as [|r].
  - cbn [chars_dict] in D. destruct (w_heap s1 w) as [[| | | | | | | |d]|] eqn:F; unfold dict_at in D; rewrite F in D; try discriminate D.
    cbn [chars_dict put_chars]. rewrite F. unfold dict_at. rewrite SigValueProofs.set_same. cbn [bind]. unfold get_key. rewrite SigValueProofs.get_added, beq_refl.
    cbn [bind find_key_parent]. unfold dict_find, get_key. rewrite SigValueProofs.get_added, beq_refl. reflexivity.
  - cbn [chars_dict put_chars]. unfold dict_at. rewrite SigValueProofs.set_same. cbn [bind find_key_parent]. unfold dict_find, get_key.
    rewrite SigValueProofs.get_added, beq_refl. reflexivity.
Qed.
Print Assumptions C163_read.

(** Taking a caption away leaves no entry, nothing new and the other entries *)
Theorem C163_taken w s t s' p d : w_chars s = Some p -> chars_dict (w_heap s) w p = Ok d -> DictProofs.sorted d -> button_set s (widget_of (FromWidget w)) t None = (s', Ok tt) ->
  w_next s' = w_next s /\ w_chars s' = Some p /\ exists d', chars_dict (w_heap s') w p = Ok d' /\ get_key (entry_name t) d' = None /\
  forall k, k <> entry_name t -> get_key k d' = get_key k d.
Proof.
  intros C D S. unfold button_set, widget_of, clear. rewrite C, D. intros E. apply pair_equal_spec in E as [<- _]. cbn [w_next w_chars w_heap].
  split; [reflexivity|]. split; [first [exact C|reflexivity]|]. exists (snd (remove_key (trait_key t) d)).
  assert (N : trait_key t = entry_name t) by (destruct t; reflexivity). split; [|split].
  - destruct p as [|r]; cbn [chars_dict put_chars] in *.
    + destruct (w_heap s w) as [[| | | | | | | |b]|] eqn:F; unfold dict_at in D; rewrite F in D; try discriminate D.
      unfold dict_at. rewrite SigValueProofs.set_same. cbn [bind]. unfold get_key. rewrite SigValueProofs.get_added, beq_refl. reflexivity.
    + unfold dict_at. rewrite SigValueProofs.set_same. reflexivity.
  - unfold get_key. rewrite (SigValueProofs.get_removed _ _ _ S), N, beq_refl. reflexivity.
  - intros k K. unfold get_key. rewrite (SigValueProofs.get_removed _ _ _ S), N. destruct (beq k (entry_name t)) eqn:B; [apply beq_eq in B; contradiction|reflexivity].
Qed.
Print Assumptions C163_taken.

(** The caption of a button that comes from the form, new or listed in it, goes through a null pointer *)
Theorem C163_form_refuted fuel s t v o : o = FromForm \/ o = FromObject ->
  button_set s (widget_of o) t v = (s, UB) /\ button_get fuel s (widget_of o) t = UB.
Proof. intros [-> | ->]; split; reflexivity. Qed.
Print Assumptions C163_form_refuted.

(** Table 189 has no entries that are inherited: a caption of a parent shows through and cannot be cleared *)
Theorem C163_inherited_refuted : exists h s, open_widget h 3 (2, 0) = Ok s /\
  (forall d, chars_dict h (2, 0) MkIn = Ok d -> absent d (bs "CA")) /\ get_caption 3 s (2, 0) TCaption = Ok (Some (bs "other")) /\
  get_caption 3 (fst (clear s (2, 0) TCaption)) (2, 0) TCaption = Ok (Some (bs "other")).
Proof.
  exists (fun r => if ref_eqb r (2, 0) then Some (ODict [(bs "MK", ODict [(bs "Parent", ODict [(bs "CA", OStr false (bs "other"))])])]) else None).
  eexists. split; [reflexivity|]. split; [|split; vm_compute; reflexivity]. intros d E. vm_compute in E. injection E as <-. reflexivity.
Qed.
Print Assumptions C163_inherited_refuted.

(** Table 189: an array without numbers is a transparent colour. It is got as black, as a background that is absent is *)
Theorem C163_transparent_refuted : exists h s, open_widget h 3 (2, 0) = Ok s /\ find_trait 3 s (2, 0) TBackground = Ok (Some (OArr [])) /\
  get_trait_color 3 s (2, 0) TBackground = gray 0 /\ find_trait 3 s (2, 0) TBorder = Ok None /\ get_trait_color 3 s (2, 0) TBorder = gray 0.
Proof.
  exists (fun r => if ref_eqb r (2, 0) then Some (ODict [(bs "MK", ODict [(bs "BG", OArr [])])]) else None).
  eexists. split; [reflexivity|]. repeat split; vm_compute; reflexivity.
Qed.
Print Assumptions C163_transparent_refuted.

(** A colour that can be set need not be got: the numbers of a Lab colour are taken for red, green and blue *)
Theorem C163_lab_refuted : exists c, lab 50 0 0 = Ok c /\ to_array c = Ok [50; 0; 0]%Q /\
  let s := wrun (2, 0) (mk_wst page0 3 None) [Put TBorder (Ok (OArr [ONum 50; ONum 0; ONum 0]))] in
  map real_of [ONum 50; ONum 0; ONum 0] = map Some [50; 0; 0]%Q /\ get_trait_color 3 s (2, 0) TBorder = Err EValueOutOfRange.
Proof. eexists. split; [reflexivity|]. split; [reflexivity|]. split; vm_compute; reflexivity. Qed.
Print Assumptions C163_lab_refuted.

(** Setting a transparent colour raises, and leaves characteristics that were not there *)
Theorem C163_raised_refuted : to_array transparent = Err ECannotConvertColor /\
  let s := wrun (2, 0) (mk_wst page0 3 None) [Put TBorder (Err ECannotConvertColor)] in
  w_heap s (3, 0) = Some (ODict []) /\ w_heap s (2, 0) <> page0 (2, 0).
Proof. split; [reflexivity|]. split; [reflexivity|]. vm_compute. discriminate. Qed.
Print Assumptions C163_raised_refuted.

(** 7.3.7: an entry whose value is null is as one that is absent; a widget with such characteristics cannot be opened *)
Theorem C163_null_refuted : exists h d, h (2, 0) = Some (ODict d) /\ dict_get (bs "MK") d = Some ONull /\ forall m, open_widget h m (2, 0) = Err EInvalidDataType.
Proof.
  exists (fun r => if ref_eqb r (2, 0) then Some (ODict [(bs "MK", ONull)]) else None), [(bs "MK", ONull)]. split; [reflexivity|]. split; [reflexivity|]. intros m. reflexivity.
Qed.
Print Assumptions C163_null_refuted.

Example C163_case :
  let h := fun r : ref => if ref_eqb r (2, 0) then Some (ODict [(bs "MK", ODict [(bs "CA", OStr false (bs "old")); (bs "R", ONum 90)])]) else None in
  exists s, open_widget h 3 (2, 0) = Ok s /\ button_get 3 s (Some (2, 0)) TCaption = Ok (Some (bs "old")) /\
    w_heap (fst (button_set s (Some (2, 0)) TCaption (Some (bs "new")))) (2, 0) =
      Some (ODict [(bs "MK", ODict [(bs "CA", OStr false (bs "new")); (bs "R", ONum 90)])]) /\
    button_get 3 (fst (button_set s (Some (2, 0)) TCaption None)) (Some (2, 0)) TCaption = Ok None.
Proof. eexists. split; [reflexivity|]. repeat split; vm_compute; reflexivity. Qed.
