(** Theorems about the object list. *)
From Coq Require Import String.
From Verif Require Import Base TokModel ListModel ListSpec ListProofs ListPropLemmas.
Local Open Scope Z_scope.

(** ** C28: new objects never clobber live ones *)

(** In every history with room for the object; missing is the case without, where the statement is false. *)
Theorem C28_create_partial h s o : hist h s -> room s -> exists r s', create o s = Ok (r, s') /\
  get_object r s = None /\ get_object r s' = Some o /\ (forall r', r' <> r -> get_object r' s' = get_object r' s).
Proof. exact (create_fresh h s o). Qed.
Print Assumptions C28_create_partial.

Theorem C28_remove h s r mark : hist h s -> ~ In (fst r) (ostrms s) -> exists s', remove r mark s = Ok (get_object r s, s') /\
  get_object r s' = None /\ (forall r', r' <> r -> get_object r' s' = get_object r' s).
Proof. intros H. exact (remove_exact s r mark (proj1 (hist_wf_inv h s H))). Qed.
Print Assumptions C28_remove.

Definition one : iobj := (ONum 1, None).
Definition two_objects : olist := push (65536, 0) one (push (1, 0) one empty_list).
(** The next number is kept in 16 bits: with object 65536 in use, the new object takes the place of object 1. *)
Theorem C28_clobbers_refuted : exists h s o s', hist h s /\ get_object (1, 0) s = Some one /\ o <> one /\
  create o s = Ok ((1, 0), s') /\ get_object (1, 0) s' = Some o.
Proof.
  exists [(65536, 0); (1, 0)], two_objects, (ONum 2, None). eexists. split.
  - apply h_load; [apply h_load; [constructor|split; cbn; lia|intros r' [[]|[]]]|split; cbn; lia|].
    intros r' [[<- |[]]|[]]; cbn; lia.
  - split; [reflexivity|]. split; [discriminate|]. split; [vm_compute; reflexivity|vm_compute; reflexivity].
Qed.
Print Assumptions C28_clobbers_refuted.

(** A file listing two generations of one number (both are loaded): reusing the first clobbers the second. *)
Theorem C28_two_generations_refuted : exists s x s' o s'',
  s = push (5, 1) one (push (5, 0) one empty_list) /\ remove (5, 0) true s = Ok (x, s') /\ get_object (5, 1) s' = Some one /\
  create o s' = Ok ((5, 1), s'') /\ get_object (5, 1) s'' = Some o /\ o <> one.
Proof.
  do 2 eexists. eexists. exists (ONum 2, None). eexists. split; [reflexivity|]. split; [vm_compute; reflexivity|].
  split; [vm_compute; reflexivity|]. split; [vm_compute; reflexivity|]. split; [vm_compute; reflexivity|discriminate].
Qed.
Print Assumptions C28_two_generations_refuted.

(** Object number 0 is the head of the free list; it can be handed out. *)
Theorem C28_zero_refuted : exists h s o s', hist h s /\ create o s = Ok ((0, 0), s').
Proof.
  exists [(65534, 0); (1, 65534)]. eexists. exists one. eexists. split.
  - apply (h_remove _ (push (65534, 0) one (push (1, 65534) one empty_list)) (1, 65534) true (Some one)).
    + apply h_load; [apply h_load; [constructor|split; cbn; lia|intros r' [[]|[]]]|split; cbn; lia|].
      intros r' [[<- |[]]|[]]; cbn; lia.
    + vm_compute. reflexivity.
  - vm_compute. reflexivity.
Qed.
Print Assumptions C28_zero_refuted.

Example C28_case :
  (exists s', create one (push (3, 0) one empty_list) = Ok ((4, 0), s')) /\
  (exists x s s', remove (3, 0) true (push (4, 0) one (push (3, 0) one empty_list)) = Ok (x, s) /\ create one s = Ok ((3, 1), s')).
Proof. split; [eexists; vm_compute; reflexivity|]. do 3 eexists. split; [vm_compute; reflexivity|vm_compute; reflexivity]. Qed.

(** ** C29: reused object numbers get a higher generation *)

(** With room for the object; loaded files list each number once. *)
Theorem C29_generation_partial h s o n g s' : hist h s -> room s -> create o s = Ok ((n, g), s') ->
  (forall g', In (n, g') h -> g' < g) /\ g <= 65534.
Proof. exact (create_generation h s o n g s'). Qed.
Print Assumptions C29_generation_partial.

(** With object 65536 in use and reuse switched off, the number and generation of a removed object come back. *)
Theorem C29_generation_refuted : exists h s o s', hist h s /\ In (1, 0) h /\ get_object (1, 0) s = None /\ create o s = Ok ((1, 0), s').
Proof.
  exists [(65536, 0); (1, 0)]. eexists. exists one. eexists. split.
  - apply (h_remove _ (set_reuse false two_objects) (1, 0) true (Some one)).
    + apply h_reuse. apply h_load; [apply h_load; [constructor|split; cbn; lia|intros r' [[]|[]]]|split; cbn; lia|].
      intros r' [[<- |[]]|[]]; cbn; lia.
    + vm_compute. reflexivity.
  - split; [cbn; auto|]. split; [vm_compute; reflexivity|vm_compute; reflexivity].
Qed.
Print Assumptions C29_generation_refuted.

Example C29_case : exists x s s', remove (3, 7) true (push (3, 7) one empty_list) = Ok (x, s) /\ create one s = Ok ((3, 8), s') /\
  exists y t t', remove (3, 65534) true (push (3, 65534) one empty_list) = Ok (y, t) /\ create one t = Ok ((4, 0), t').
Proof.
  do 3 eexists. split; [vm_compute; reflexivity|]. split; [vm_compute; reflexivity|]. do 3 eexists. split; [vm_compute; reflexivity|vm_compute; reflexivity].
Qed.

(** ** C30: replacing an object replaces that object *)

(** For a reference in use and an object of the same document *)
Theorem C30_replace_partial h s r o old : hist h s -> get_object r s = Some old -> exists s', replace r o true s = (Ok old, s') /\
  get_object r s' = Some o /\ (forall r', r' <> r -> get_object r' s' = get_object r' s).
Proof. intro H. exact (replace_live s r o old (proj1 (hist_wf_inv h s H))). Qed.
Print Assumptions C30_replace_partial.

(** For a reference not in use, the next object is lost. *)
Theorem C30_missing_refuted : exists s, well_formed s /\ get_object (3, 0) s = Some one /\ get_object (2, 0) s = None /\
  fst (replace (2, 0) one true s) = Ok one /\ get_object (3, 0) (snd (replace (2, 0) one true s)) = None.
Proof.
  exists (push (3, 0) one empty_list). split; [split; cbn; auto|]. repeat split.
Qed.
Print Assumptions C30_missing_refuted.

(** An object of another document is refused, but the old object is gone. *)
Theorem C30_foreign_refuted : exists s, well_formed s /\ get_object (3, 0) s = Some one /\
  fst (replace (3, 0) one false s) = Err EInternalLogic /\ get_object (3, 0) (snd (replace (3, 0) one false s)) = None.
Proof.
  exists (push (4, 0) one (push (3, 0) one empty_list)). split; [split; [cbn; unfold ref_below; cbn; split; [lia|auto]|exact I]|].
  repeat split.
Qed.
Print Assumptions C30_foreign_refuted.

Example C30_case : get_object (1, 0) (snd (replace (1, 0) (ONum 9, None) true two_objects)) = Some (ONum 9, None) /\
  get_object (65536, 0) (snd (replace (1, 0) (ONum 9, None) true two_objects)) = Some one.
Proof. split; [vm_compute; reflexivity|vm_compute; reflexivity]. Qed.

(** ** C31: garbage collection *)
Theorem C31_collect h s tr : hist h s -> exists s', collect tr s = Some s' /\
  (forall r, reach (fun r => get_object r s) tr r \/ In (fst r) (ostrms s) -> get_object r s' = get_object r s) /\
  (forall r, ~ (reach (fun r => get_object r s) tr r \/ In (fst r) (ostrms s)) -> get_object r s' = None).
Proof. intro H. exact (collect_exact s tr (proj1 (hist_wf_inv h s H))). Qed.
Print Assumptions C31_collect.

Definition cyclic : olist :=
  push (4, 0) (ORef 4 0, None) (push (3, 0) one (push (2, 0) (OArr [ORef 1 0; ORef 9 0], None) (push (1, 0) (ODict [(bs "A", ORef 2 0)], None) empty_list))).
Example C31_case : exists s', collect (ODict [(bs "Root", ORef 1 0)]) cyclic = Some s' /\
  map fst (live s') = [(1, 0); (2, 0)] /\ frees s' = [(3, 1); (4, 1)].
Proof. eexists. split; [vm_compute; reflexivity|]. split; reflexivity. Qed.

(** ** C32: appending a document *)

(** When there are as many objects and free entries ([d]) as numbers, and no number exceeds 32 bits *)
Theorem C32_append_partial src s d : d = Z.of_nat (length (live s) + length (frees s)) -> d < 2 ^ 32 -> well_formed s -> well_formed src -> count s <= d + 1 ->
  (forall r o, In (r, o) (live s) -> fst r < count s) ->
  (forall r o, In (r, o) (live src) -> 1 <= fst r < 2 ^ 32 - d /\ (forall n g, mentions (fst o) (n, g) -> 0 <= n < 2 ^ 32 - d)) ->
  (forall r, get_object r s <> None -> get_object r (append src s) = get_object r s) /\
  (forall n g o st, get_object (n, g) src = Some (o, st) ->
     exists o', get_object (n + d, g) (append src s) = Some (o', st) /\ shifted d o o') /\
  (forall n g, get_object (n, g) (append src s) <> None -> get_object (n, g) s <> None \/ get_object (n - d, g) src <> None).
Proof. exact (append_counted src s d). Qed.
Print Assumptions C32_append_partial.

(** With a gap in the numbering an object of the first document is lost. *)
Theorem C32_gap_refuted : exists h h' s src, hist h s /\ hist h' src /\ get_object (5, 0) s = Some one /\
  get_object (5, 0) (append src s) = Some (ONum 2, None).
Proof.
  exists [(5, 0)], [(4, 0)], (push (5, 0) one empty_list), (push (4, 0) (ONum 2, None) empty_list).
  split; [apply h_load; [constructor|split; cbn; lia|intros r' [[]|[]]]|].
  split; [apply h_load; [constructor|split; cbn; lia|intros r' [[]|[]]]|]. split; [vm_compute; reflexivity|vm_compute; reflexivity].
Qed.
Print Assumptions C32_gap_refuted.

Definition doc_a : olist := push (2, 0) (ORef 1 0, None) (push (1, 0) one empty_list).
Example C32_case : map fst (live (append doc_a doc_a)) = [(1, 0); (2, 0); (3, 0); (4, 0)] /\
  get_object (4, 0) (append doc_a doc_a) = Some (ORef 3 0, None) /\ count doc_a <= Z.of_nat (length (live doc_a) + length (frees doc_a)) + 1.
Proof. split; [vm_compute; reflexivity|]. split; [vm_compute; reflexivity|]. cbn. lia. Qed.

(** ** C33: inserting a page of another document *)

(** The loop copies the objects of the document it inserts into, and what it inserts lies ahead of it: even
    with one object it goes on until the object numbers are used up (the source document is never read). *)
Theorem C33_insert_refuted v st n : Z.of_nat n < 2 ^ 32 - 2 ->
  insert_objects n (mk_ol [((1, 0), (v, st))] 2 [] [] [] true) = Fuel.
Proof. intro N. exact (insert_runs_on v st 2 n N ltac:(lia)). Qed.
Print Assumptions C33_insert_refuted.

Example C33_case : exists s, create one empty_list = Ok ((1, 0), s) /\ insert_objects 500 s = Fuel.
Proof. eexists. split; [vm_compute; reflexivity|]. vm_compute. reflexivity. Qed.

(** ** C71: clearing a list *)

(** The objects are gone, and no lookup finds one; but the list is not in its default state. *)
Theorem C71_clear_partial s : (forall r, get_object r (clear s) = None) /\ count (clear s) = count empty_list.
Proof. split; [exact (cleared_live s)|reflexivity]. Qed.
Print Assumptions C71_clear_partial.

(** The free list survives, so the first object gets a number of the previous document; so do the registered
    object streams, so that a new object may not be removable. *)
Theorem C71_clear_refuted : exists h s s', hist h s /\ create one (clear s) = Ok ((7, 1), s') /\
  exists h2 s2 s2', hist h2 s2 /\ create one (clear s2) = Ok ((1, 0), s2') /\ remove (1, 0) true s2' = Err EInternalLogic.
Proof.
  exists [(7, 0)]. do 2 eexists. split.
  { apply (h_remove _ (push (7, 0) one empty_list) (7, 0) true (Some one)).
    - apply h_load; [constructor|split; cbn; lia|intros r' [[]|[]]].
    - vm_compute. reflexivity. }
  split; [vm_compute; reflexivity|].
  exists []. do 2 eexists. split; [apply (h_stream _ empty_list 1); constructor|]. split; [vm_compute; reflexivity|vm_compute; reflexivity].
Qed.
Print Assumptions C71_clear_refuted.

Example C71_case : live (clear cyclic) = [].
Proof. reflexivity. Qed.
