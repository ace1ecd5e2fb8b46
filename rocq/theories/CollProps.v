(** Properties of the collections of annotations, form fields and children of a field. *)
From Coq Require Import String.
From Verif Require Import Base TokModel OwnModel OwnSpec OwnProofs ListModel PageModel CollModel FieldModel CollSpec CollProofs CollPropLemmas.
Local Open Scope Z_scope.

(** A collection read from an array of distinct references behaves as the list of these references, in every history of
    requests; at the end, the array in the document has the references of the list. *)
Theorem C112_list look src make l h l' : regular look make src l -> history l h l' -> h <> [] ->
  exists c, runs look src make (map fst h) fresh = (map (fun x => Some (snd x)) h, c) /\ entries_are src c l'.
Proof. apply collection_list. Qed.
Print Assumptions C112_list.
(** and a list gives an answer to every request *)
Theorem C112_answers l q : exists a l', behaves l q a l'. Proof. apply behaves_total. Qed.
Print Assumptions C112_answers.
(** The field pointer of a reference of the list is its own *)
Theorem C112_pointer look src make l h l' c : regular look make src l -> history l h l' -> h <> [] -> snd (runs look src make (map fst h) fresh) = c ->
  forall r, In r l' -> fst (get_ptr r c) = Ok (Some (SObj r)).
Proof. apply pointer_own. Qed.
Print Assumptions C112_pointer.
(** but that of any other reference is the first field of the form: a child of a child gets a wrong parent *)
Theorem C112_pointer_refuted look src make l h x t c : regular look make src l -> history l h (x :: t) -> h <> [] -> snd (runs look src make (map fst h) fresh) = c ->
  forall r, ~ In r (x :: t) -> fst (get_ptr r c) = Ok (Some (SObj x)).
Proof. apply pointer_other. Qed.
Print Assumptions C112_pointer_refuted.
(** After an element that makes no item: the first request raises; the next ones see the items before it only *)
Theorem C112_broken look src make l o v rest e : broken look src make l o v rest e -> forall q, exists c,
  run look src make q fresh = (Some (ARaise e), c) /\
  fst (run look src make RCount c) = Some (AOut (Z.of_nat (length l))) /\
  (forall i r, nth_error l i = Some r -> fst (run look src make (RAt i) c) = Some (AItem r)) /\
  (forall i, (length l <= i)%nat -> fst (run look src make (RAt i) c) = Some (ARaise EValueOutOfRange)).
Proof. apply truncated. Qed.
Print Assumptions C112_broken.
(** and an item added then is not found: Get reads past the items *)
Theorem C112_added_refuted look src make l o v rest e : broken look src make l o v rest e -> forall q r, exists c',
  run look src make (RAdd r) (snd (run look src make q fresh)) = (Some ADone, c') /\ fst (run look src make (RGet r) c') = None.
Proof. intros B q r. destruct (added_exists look src make l o v rest e B q r) as (c' & E). exists c'. split; [exact E|]. eapply added_after_error; eauto. Qed.
Print Assumptions C112_added_refuted.
(** An entry that is no array raises once; then it is as if there were no entry *)
Theorem C112_no_array look src make o : src = Some o -> (forall l, o <> OArr l) -> forall q q', exists c,
  run look src make q fresh = (Some (ARaise EInvalidDataType), c) /\ fst (run look src make q' c) = fst (run look None make q' fresh).
Proof. apply no_array. Qed.
Print Assumptions C112_no_array.
(** A value makes an annotation if and only if it is a dictionary with a known type; other values raise *)
Theorem C112_annotation look o : (make_annot look o = Ok true <-> exists d n, o = ODict d /\ entry look d (bs "Subtype") (OName n) /\ In n annotation_types) /\
  make_annot look o <> Ok false.
Proof. split; [apply annot_valid|apply annot_never_skipped]. Qed.
Print Assumptions C112_annotation.
(** Arrays with a reference twice, or with two direct dictionaries: removing uses the end of the map *)
Theorem C112_twice_refuted : exists look src, make_annot look (ODict [(bs "Subtype", OName (bs "Link"))]) = Ok true /\
  src = Some (OArr [ORef 1 0; ORef 2 0; ORef 1 0]) /\
  fst (runs look src (make_annot look) [RRemoveAt 0; RCount; RRemoveAt 1] fresh) = [Some ADone; Some (AOut 2); None].
Proof. apply twice_refuted. Qed.
Print Assumptions C112_twice_refuted.
Theorem C112_direct_refuted : exists look d, make_annot look d = Ok true /\
  fst (runs look (Some (OArr [d; d])) (make_annot look) [RRemoveAt 0; RCount; RRemoveAt 0] fresh) = [Some ADone; Some (AOut 1); None].
Proof. apply direct_refuted. Qed.
Print Assumptions C112_direct_refuted.
(** Iterating a collection that has not been used gives nothing *)
Theorem C112_iterate_refuted : exists look src, regular look (make_annot look) src [(1, 0); (2, 0)] /\
  iterated fresh = [] /\ fst (run look src (make_annot look) RCount fresh) = Some (AOut 2).
Proof. apply iterate_refuted. Qed.
Print Assumptions C112_iterate_refuted.
Example C112_case : let src := Some (OArr [ORef 1 0; ORef 2 0]) in
  regular some_look (make_annot some_look) src [(1, 0); (2, 0)] /\
  history [(1, 0); (2, 0)] [(RCount, AOut 2); (RRemoveAt 0, ADone); (RAdd (7, 0), ADone); (RAt 1, AItem (7, 0)); (RGet (1, 0), ARaise EInternalLogic)] [(2, 0); (7, 0)] /\
  exists c, runs some_look src (make_annot some_look) [RCount; RRemoveAt 0; RAdd (7, 0); RAt 1; RGet (1, 0)] fresh =
    ([Some (AOut 2); Some ADone; Some ADone; Some (AItem (7, 0)); Some (ARaise EInternalLogic)], c) /\
  arr c = Some [ORef 2 0; ORef 7 0] /\ fst (get_ptr (9, 0) c) = Ok (Some (SObj (2, 0))).
Proof.
  cbv zeta. split; [|split].
  - split; [|split; [|left; reflexivity]]; [repeat (constructor; [cbn; intuition discriminate|]); constructor|].
    intros r [<-|[<-|[]]]; (split; [discriminate|]); (eexists; split; [reflexivity|vm_compute; reflexivity]).
  - apply hi_step with [(1, 0); (2, 0)]; [apply be_count|discriminate|]. apply hi_step with [(2, 0)]; [apply (be_cut [])|discriminate|].
    apply hi_step with [(2, 0); (7, 0)]; [apply (be_add [(2, 0)])|intros r E; injection E as <-; cbn; intuition discriminate|].
    apply hi_step with [(2, 0); (7, 0)]; [apply (be_at [(2, 0)])|discriminate|]. apply hi_step with [(2, 0); (7, 0)]; [apply be_get_none; cbn; intuition discriminate|discriminate|constructor].
  - eexists. split; [vm_compute; reflexivity|]. split; vm_compute; reflexivity.
Qed.
