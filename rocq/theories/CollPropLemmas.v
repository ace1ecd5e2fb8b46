(** The properties of indexed collections, proved; [CollProps.v] states them once more. *)
From Coq Require Import String.
From Verif Require Import Base TokModel OwnModel OwnSpec OwnProofs ListModel PageModel CollModel FieldModel CollSpec CollProofs.
Local Open Scope Z_scope.

Definition entries_are (src : option obj) (c : coll) (l : list ref) : Prop :=
  arr c = Some (ref_elements l) \/ (arr c = None /\ src = None /\ l = []).

Lemma behaves_total l q : exists a l', behaves l q a l'.
Proof.
  destruct q as [|i|r|i|r|r].
  - do 2 eexists; apply be_count.
  - destruct (le_lt_dec (length l) i) as [L|L]; [do 2 eexists; apply be_at_out, L|].
    destruct (nth_error l i) as [r|] eqn:E; [|apply nth_error_None in E; lia].
    apply nth_error_split in E as (a & b & -> & <-). do 2 eexists; apply be_at.
  - destruct (index r l) as [n|] eqn:E.
    + do 2 eexists; apply be_get. apply index_nth in E. eapply nth_error_In, E.
    + do 2 eexists; apply be_get_none. apply index_none, E.
  - destruct (le_lt_dec (length l) i) as [L|L]; [do 2 eexists; apply be_cut_out, L|].
    destruct (nth_error l i) as [r|] eqn:E; [|apply nth_error_None in E; lia].
    apply nth_error_split in E as (a & b & -> & <-). do 2 eexists; apply be_cut.
  - destruct (index r l) as [n|] eqn:E.
    + apply index_nth in E. apply nth_error_split in E as (a & b & -> & <-). do 2 eexists; apply be_remove.
    + do 2 eexists; apply be_remove_none. apply index_none, E.
  - do 2 eexists; apply be_add.
Qed.

Section S.
Variable look : ref -> option obj.
Variable src : option obj.
Variable make : obj -> res bool.

Lemma regular_init l : regular look make src l -> exists c, init look src make fresh = (Ok tt, c) /\ shows c l /\ entries_are src c l.
Proof.
  intros (N & G & [E|[E ->]]).
  - destruct (init_good look src make l N (proj2 (Forall_forall _ _) G) E) as (c & C & S'). exists c. split; [exact C|]. split; [exact S'|].
    left. unfold init in C. cbn [imap fresh] in C. rewrite E in C. cbn [items fresh] in C. destruct (fill look make (ref_elements l) 0 [] []) as [x [y z]].
    apply (f_equal snd) in C. cbn [snd] in C. subst c. reflexivity.
  - destruct (init_none look src make E) as (c & C & S'). exists c. split; [exact C|]. split; [exact S'|]. right.
    unfold init in C. cbn [imap fresh] in C. rewrite E in C. apply (f_equal snd) in C. cbn [snd] in C. subst c. auto.
Qed.
(** the array stays where it is once it is there *)
Lemma step_entries c l q a l' : shows c l -> entries_are src c l -> forall c', run look src make q c = (a, c') -> shows c' l' -> entries_are src c' l'.
Proof.
  intros S0 A c' R S'. pose proof S' as (m & _ & _ & _ & _ & X). destruct (arr c') as [x|] eqn:Y; [left; rewrite Y; congruence|]. right. rewrite Y.
  split; [reflexivity|]. split; [|exact X]. destruct A as [A|(A & B & _)]; [|exact B]. exfalso.
  assert (K : forall B (f : B -> answer) (o : out B), answer_of f o = (a, c') -> snd o = c') by (intros B f o Q; apply (f_equal snd) in Q; exact Q).
  pose proof S0 as (m0 & M0 & _).
  destruct q; cbn [run] in R; apply K in R; unfold count, get_at, get, remove_at, remove, add in R; rewrite (with_init_again look src make c l _ S0) in R.
  - cbn in R. congruence.
  - destruct (_ <=? _)%nat; cbn in R; congruence.
  - rewrite M0 in R. destruct (map_find _ _); cbn in R; congruence.
  - assert (CUT : forall j mm, snd (cut j mm c) = c' -> False) 
      by (intros j mm Q; unfold cut in Q; rewrite A in Q; destruct (length (ref_elements l) <=? j)%nat; apply (f_equal arr) in Q; cbn in Q; congruence).
    destruct (_ <=? _)%nat; [cbn in R; congruence|]. rewrite M0 in R. destruct (nth_error _ _) as [[p|]|]; [|eauto|cbn in R; congruence].
    destruct (used c (Some (Some p))); try (cbn in R; congruence). destruct (map_find _ _); [eauto|cbn in R; congruence].
  - rewrite M0 in R. destruct (map_find _ _); [|cbn in R; congruence]. destruct (_ <=? _)%nat; [cbn in R; congruence|]. rewrite A in R.
    unfold cut in R. rewrite ?A in R. destruct (_ <=? _)%nat; [destruct c'; cbn in R, Y; congruence|]. apply (f_equal arr) in R. cbn in R. congruence.
  - rewrite M0 in R. cbn in R. subst c'. cbn in Y. discriminate.
Qed.
Lemma runs_shows h l l' : history l h l' -> forall c, NoDup l -> shows c l -> entries_are src c l ->
  exists c', runs look src make (map fst h) c = (map (fun x => Some (snd x)) h, c') /\ shows c' l' /\ entries_are src c' l'.
Proof.
  induction 1 as [l|l q a l1 t l2 B FR _ IH]; intros c N S0 A; cbn; [eauto|].
  destruct (step look src make c l q a l1 N S0 B FR) as (c1 & R & S1 & N1). rewrite R.
  destruct (IH c1 N1 S1 (step_entries c l q (Some a) l1 S0 A c1 R S1)) as (c' & R' & S2). rewrite R'. eauto.
Qed.
Lemma collection_shows l h l' : regular look make src l -> history l h l' -> h <> [] ->
  exists c, runs look src make (map fst h) fresh = (map (fun x => Some (snd x)) h, c) /\ shows c l' /\ entries_are src c l'.
Proof.
  intros G H NE. destruct (regular_init l G) as (c & C & S0 & A). destruct (runs_shows h l l' H c (proj1 G) S0 A) as (c' & R & S' & A').
  exists c'. split; [|auto]. rewrite <- R. destruct h as [|[q a] t]; [congruence|]. cbn [map fst runs].
  rewrite (run_fresh look src make q c C); [reflexivity|]. destruct S0 as (m & M & _). eauto.
Qed.
Lemma collection_list l h l' : regular look make src l -> history l h l' -> h <> [] ->
  exists c, runs look src make (map fst h) fresh = (map (fun x => Some (snd x)) h, c) /\ entries_are src c l'.
Proof. intros G H NE. destruct (collection_shows l h l' G H NE) as (c & R & _ & A). eauto. Qed.
Lemma pointer_own l h l' c : regular look make src l -> history l h l' -> h <> [] -> snd (runs look src make (map fst h) fresh) = c ->
  forall r, In r l' -> fst (get_ptr r c) = Ok (Some (SObj r)).
Proof.
  intros G H NE E r I. destruct (collection_shows l h l' G H NE) as (c1 & R & (m & M & K & F & IT & _) & _). rewrite R in E. cbn in E. subst c1.
  unfold get_ptr. rewrite M, F. destruct (index r l') as [n|] eqn:X; [|apply index_none in X; tauto]. cbn [option_map items fst].
  rewrite Nat2Z.id, IT, (map_nth_error _ _ _ (index_nth _ _ _ X)). reflexivity.
Qed.
Lemma pointer_other l h x t c : regular look make src l -> history l h (x :: t) -> h <> [] -> snd (runs look src make (map fst h) fresh) = c ->
  forall r, ~ In r (x :: t) -> fst (get_ptr r c) = Ok (Some (SObj x)).
Proof.
  intros G H NE E r I. destruct (collection_shows l h (x :: t) G H NE) as (c1 & R & (m & M & K & F & IT & _) & _). rewrite R in E. cbn [snd] in E. subst c1.
  unfold get_ptr. rewrite M, F. apply index_none in I. rewrite I. cbn [option_map items fst]. rewrite IT. reflexivity.
Qed.

(** ** An element that makes no item *)
Lemma stands_resolve o v i : stands look o v -> snd (resolve look o i) = v.
Proof.
  intros [r v' Z0 L|o' H]; [rewrite (good_resolve look r i Z0 v' L); reflexivity|].
  unfold resolve. destruct o'; try reflexivity. destruct ((n =? 0) && (g =? 0)) eqn:Z0; [reflexivity|].
  destruct (H (n, g) eq_refl) as [L|L]; [rewrite L; reflexivity|]. injection L as -> ->. discriminate.
Qed.
Definition broken (l : list ref) (o v : obj) (rest : list obj) (e : errc) : Prop :=
  NoDup l /\ (forall r, In r l -> r <> (0, 0) /\ exists v, look r = Some v /\ make v = Ok true) /\
  src = Some (OArr (ref_elements l ++ o :: rest)) /\ stands look o v /\ make v = Err e.
Lemma init_broken l o v rest e : broken l o v rest e ->
  exists m, init look src make fresh = (Err e, mk_coll (Some m) (Some (ref_elements l ++ o :: rest)) (map (fun r => Some (SObj r)) l) (length (ref_elements l ++ o :: rest))).
Proof.
  intros (N & G & E & ST & M). unfold init. cbn [imap fresh]. rewrite E.
  destruct (fill_good look make l [] [] [] N (proj2 (Forall_forall _ _) G) (NoDup_nil _) (fun _ => eq_refl) eq_refl (o :: rest)) as (m' & X & _).
  cbn [app length] in X. cbn [items fresh]. rewrite X. cbn [fill]. destruct (resolve look o (length l)) as [p w] eqn:Y.
  pose proof (stands_resolve o v (length l) ST) as W. rewrite Y in W. cbn in W. subst w. rewrite M. eauto.
Qed.
Lemma truncated l o v rest e : broken l o v rest e -> forall q, exists c,
  run look src make q fresh = (Some (ARaise e), c) /\
  fst (run look src make RCount c) = Some (AOut (Z.of_nat (length l))) /\
  (forall i r, nth_error l i = Some r -> fst (run look src make (RAt i) c) = Some (AItem r)) /\
  (forall i, (length l <= i)%nat -> fst (run look src make (RAt i) c) = Some (ARaise EValueOutOfRange)).
Proof.
  intros B q. destruct (init_broken l o v rest e B) as (m & E). eexists. split.
  - destruct q; cbn; unfold count, get_at, get, remove_at, remove, add, with_init; rewrite E; reflexivity.
  - cbn. unfold count, get_at, with_init, init, answer_of. cbn. rewrite map_length. split; [reflexivity|]. split.
    + intros i r NI. assert (i < length l)%nat by (apply nth_error_Some; congruence). destruct (Nat.leb_spec (length l) i); [lia|].
      cbn. rewrite (map_nth_error _ _ _ NI). reflexivity.
    + intros i LI. destruct (Nat.leb_spec (length l) i); [|lia]. reflexivity.
Qed.
Lemma added_after_error l o v rest e : broken l o v rest e -> forall q r c c',
  snd (run look src make q fresh) = c -> run look src make (RAdd r) c = (Some ADone, c') -> fst (run look src make (RGet r) c') = None.
Proof.
  intros B q r c c' EC EA. destruct (init_broken l o v rest e B) as (m & E).
  assert (X : c = mk_coll (Some m) (Some (ref_elements l ++ o :: rest)) (map (fun r => Some (SObj r)) l) (length (ref_elements l ++ o :: rest))).
  { rewrite <- EC. destruct q; cbn; unfold count, get_at, get, remove_at, remove, add, with_init; rewrite E; reflexivity. }
  subst c. rewrite X in EA. cbn [run] in EA. unfold add, with_init, init, answer_of in EA. cbn [imap arr fst snd items] in EA.
  apply (f_equal snd) in EA. cbn [snd] in EA. subst c'. cbn [run]. unfold get, with_init, init, answer_of. cbn [imap items fst snd].
  rewrite find_put, ref_eqb_refl. rewrite Nat2Z.id. unfold ref_elements. rewrite app_length, map_length. cbn [length].
  rewrite (proj2 (nth_error_None _ _)); [reflexivity|]. rewrite app_length, map_length. cbn [length].
  clear. apply Nat.add_le_mono; [apply le_n|]. lia.
Qed.
Lemma added_exists l o v rest e : broken l o v rest e -> forall q r, exists c',
  run look src make (RAdd r) (snd (run look src make q fresh)) = (Some ADone, c').
Proof.
  intros B q r. destruct (init_broken l o v rest e B) as (m & E).
  assert (X : snd (run look src make q fresh) = mk_coll (Some m) (Some (ref_elements l ++ o :: rest)) (map (fun r => Some (SObj r)) l) (length (ref_elements l ++ o :: rest))).
  { destruct q; cbn; unfold count, get_at, get, remove_at, remove, add, with_init; rewrite E; reflexivity. }
  rewrite X. eexists. reflexivity.
Qed.
(** The entry is no array: it raises once *)
Lemma no_array o : src = Some o -> (forall l, o <> OArr l) -> forall q q', exists c,
  run look src make q fresh = (Some (ARaise EInvalidDataType), c) /\ fst (run look src make q' c) = fst (run look None make q' fresh).
Proof.
  intros E N q q'. assert (X : init look src make fresh = (Err EInvalidDataType, mk_coll (Some []) None [] 0)).
  { unfold init. cbn. rewrite E. destruct o; try reflexivity. destruct (N _ eq_refl). }
  eexists. split; [destruct q; cbn; unfold count, get_at, get, remove_at, remove, add, with_init; rewrite X; reflexivity|].
  destruct q'; reflexivity.
Qed.
End S.

(** ** What makes an item *)
Lemma annot_names_known n : existsb (beq n) annot_names = true <-> In n annotation_types.
Proof.
  rewrite existsb_exists. split.
  - intros (x & I & E). apply beq_eq in E. subst x. revert I. unfold annot_names, annotation_types. cbn [In map]. intuition (subst; auto 40).
  - intro I. exists n. split; [|apply beq_refl]. revert I. unfold annot_names, annotation_types. cbn [In map]. intuition (subst; auto 40).
Qed.
Lemma annot_valid look o : make_annot look o = Ok true <->
  exists d n, o = ODict d /\ entry look d (bs "Subtype") (OName n) /\ In n annotation_types.
Proof.
  split.
  - intro H. destruct o as [| | | | | | | |d]; try discriminate. unfold make_annot in H. destruct (dict_find look (bs "Subtype") d) as [[| | | |s| | | |]|] eqn:E; try discriminate.
    destruct (existsb (beq s) annot_names) eqn:X; [|discriminate]. exists d, s. split; [reflexivity|]. split; [apply dict_find_entry, E|apply annot_names_known, X].
  - intros (d & n & -> & E & I). apply dict_find_entry in E. unfold make_annot. rewrite E. apply annot_names_known in I. rewrite I. reflexivity.
Qed.
Lemma annot_never_skipped look o : make_annot look o <> Ok false.
Proof. intro H. destruct o as [| | | | | | | |d]; try discriminate. unfold make_annot in H. destruct (dict_find look (bs "Subtype") d) as [[]|]; try discriminate. destruct (existsb _ _); discriminate. Qed.
Lemma field_never_skipped fuel look o : make_field fuel look o <> Ok false.
Proof. unfold make_field. destruct (field_type fuel look o); cbn; discriminate. Qed.

(** ** Witnesses *)
Definition some_look : ref -> option obj := fun r => if ref_eqb r (1, 0) then Some (ODict [(bs "Subtype", OName (bs "Link"))]) else if ref_eqb r (2, 0) then Some (ODict [(bs "Subtype", OName (bs "Text"))]) else None.
Lemma twice_refuted : exists look src, make_annot look (ODict [(bs "Subtype", OName (bs "Link"))]) = Ok true /\
  src = Some (OArr [ORef 1 0; ORef 2 0; ORef 1 0]) /\
  fst (runs look src (make_annot look) [RRemoveAt 0; RCount; RRemoveAt 1] fresh) = [Some ADone; Some (AOut 2); None].
Proof. exists some_look, (Some (OArr [ORef 1 0; ORef 2 0; ORef 1 0])). split; [reflexivity|]. split; [reflexivity|]. vm_compute. reflexivity. Qed.
Lemma direct_refuted : exists look d, make_annot look d = Ok true /\
  fst (runs look (Some (OArr [d; d])) (make_annot look) [RRemoveAt 0; RCount; RRemoveAt 0] fresh) = [Some ADone; Some (AOut 1); None].
Proof. exists some_look, (ODict [(bs "Subtype", OName (bs "Link"))]). split; [reflexivity|]. vm_compute. reflexivity. Qed.
Lemma iterate_refuted : exists look src, regular look (make_annot look) src [(1, 0); (2, 0)] /\
  iterated fresh = [] /\ fst (run look src (make_annot look) RCount fresh) = Some (AOut 2).
Proof.
  exists some_look, (Some (OArr [ORef 1 0; ORef 2 0])). split; [|split; [reflexivity|vm_compute; reflexivity]]. split; [|split].
  - repeat (constructor; [cbn; intuition discriminate|]). constructor.
  - intros r [<-|[<-|[]]]; (split; [discriminate|]); (eexists; split; [reflexivity|vm_compute; reflexivity]).
  - left. reflexivity.
Qed.
