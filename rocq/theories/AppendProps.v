(** C140, C141: appending the pages of a document *)
From Coq Require Import String Lia.
From Verif Require Import Base ChainProofs TokModel OwnModel ListModel PageModel PageSpec PageProofs PageOpProofs PagePropLemmas AppendModel AppendProofs.
From Verif Require DictProofs OwnProofs OwnSpec ListSpec AppendSpec PageProps.
Local Open Scope Z_scope.

(** A page of the other document, of which the copy is there and is not in the page tree yet; what it inherits is settled *)
Definition to_append (look : heap) (diff : Z) (l : list ref) (h : heap) (p : ref) : Prop :=
  0 <= fst p /\ fst p + diff < 2 ^ 32 /\ page_object h (AppendSpec.moved diff p) /\ ~ In (AppendSpec.moved diff p) l /\
  exists sd, look p = Some (ODict sd) /\ forall k, In k AppendSpec.inherited -> exists r, OwnSpec.inherits look k sd r.
Lemma to_copied look diff l h p : to_append look diff l h p -> exists n, forall fuel, (n <= fuel)%nat -> copied look fuel diff l h p.
Proof.
  intros (A & B & C & D & sd & L & K).
  assert (X : forall ks, (forall k, In k ks -> exists r, OwnSpec.inherits look k sd r) -> exists n, forall fuel k, (n <= fuel)%nat -> In k ks -> find_key_parent fuel look k sd <> Fuel).
  { induction ks as [|k ks IH]; intros H; [exists 0%nat; intros f k _ []|]. destruct (IH ltac:(intros q Q; apply H; right; exact Q)) as (n & N).
    destruct (H k (or_introl eq_refl)) as (r & R). apply OwnProofs.inherits_found in R. destruct R as (m & M). exists (n + m)%nat. intros f q F [<-|Q]; [rewrite M by lia; discriminate|apply N; [lia|exact Q]]. }
  destruct (X _ K) as (n & N). exists n. intros f F. repeat (split; [assumption|]). exists sd. split; [exact L|]. intros k Q. apply N; assumption.
Qed.
Lemma all_copied look diff l h src : Forall (to_append look diff l h) src -> exists n, forall fuel, (n <= fuel)%nat -> Forall (copied look fuel diff l h) src.
Proof.
  induction 1 as [|p src P _ (n & N)]; [exists 0%nat; constructor|]. destruct (to_copied _ _ _ _ _ P) as (m & M). exists (n + m)%nat. intros f F.
  constructor; [apply M; lia|apply N; lia].
Qed.
(** A document that was opened and then changed *)
Lemma made_good max h root l0 s0 s l : doc_pages max h root l0 -> Z.of_nat (length l0) < 2 ^ 31 -> open_pages max root h = Ok s0 -> steps s0 l0 s l -> good s l /\ pmax s = max /\ proot s = root.
Proof.
  intros D B O St. destruct (open_good max root h l0 D B) as (s1 & O1 & G & M & R & _). assert (s1 = s0) as -> by congruence.
  destruct (steps_good _ _ _ _ G St) as (G' & M' & R'). split; [exact G'|]. split; congruence.
Qed.

(** ** C140 *)
(** The pages of the other document come after those of this one, in their order; the objects of the own pages are not changed, and each appended page
    has the entries of its copy, those that it inherited, and the parent that the tree gives it. Missing: the outlines, and that the entries stay what
    they were when the new parents have entries to inherit (C141). *)
Theorem C140_append_partial : forall max h root l0 s0 s l look diff src, doc_pages max h root l0 -> Z.of_nat (length l0) < 2 ^ 31 -> open_pages max root h = Ok s0 -> steps s0 l0 s l ->
  0 <= diff -> Z.of_nat (length l + length src) < 2 ^ 31 -> NoDup src -> Forall (to_append look diff l (pheap s)) src ->
  exists n, forall fuel, (n <= fuel)%nat -> exists s', append_pages fuel look diff src s = Ok s' /\ doc_pages max (pheap s') root (l ++ map (AppendSpec.moved diff) src) /\
    steps s0 l0 s' (l ++ map (AppendSpec.moved diff) src) /\ (forall q, In q l -> pheap s' q = pheap s q) /\
    forall p, In p src -> exists sd d0 d' up, look p = Some (ODict sd) /\ pheap s (AppendSpec.moved diff p) = Some (ODict d0) /\
      pheap s' (AppendSpec.moved diff p) = Some (ODict (dict_add (bs "Parent") (ptr up) d')) /\ AppendSpec.taken_over look diff sd d0 d'.
Proof.
  intros max h root l0 s0 s l look diff src D B O St D0 LB N F. destruct (made_good _ _ _ _ _ _ _ D B O St) as (G & M & R).
  destruct (all_copied _ _ _ _ _ F) as (n & C). exists n. intros fuel Fu. destruct (append_ok fuel look diff src D0 s l G LB N (C fuel Fu)) as (s' & A & G' & St' & Own & P).
  destruct (steps_good _ _ _ _ G St') as ((Dp & _) & M' & R'). rewrite M', R', M, R in Dp.
  exists s'. split; [exact A|]. split; [exact Dp|]. split; [eapply steps_trans; eassumption|]. split; [exact Own|].
  intros p I. destruct (P p I) as (sd & d0 & d' & up & X1 & X2 & _ & X4 & X5). exists sd, d0, d', up. repeat (split; [assumption|]). assumption.
Qed.
Print Assumptions C140_append_partial.
(** Appending a range of pages: those before and behind the range are removed again. Missing: ranges beyond the pages, see below. *)
Theorem C140_range_partial : forall max h root l0 s0 s own src idx cnt, doc_pages max h root l0 -> Z.of_nat (length l0) < 2 ^ 31 -> open_pages max root h = Ok s0 -> steps s0 l0 s (own ++ src) ->
  0 <= idx -> 0 <= cnt -> idx + cnt <= Z.of_nat (length src) ->
  exists s', keep_range (Z.of_nat (length own)) (Z.of_nat (length src)) idx cnt s = (Ok tt, s') /\
    doc_pages max (pheap s') root (own ++ firstn (Z.to_nat cnt) (skipn (Z.to_nat idx) src)) /\ steps s0 l0 s' (own ++ firstn (Z.to_nat cnt) (skipn (Z.to_nat idx) src)).
Proof.
  intros max h root l0 s0 s own src idx cnt D B O St I C L. destruct (made_good _ _ _ _ _ _ _ D B O St) as (G & M & R).
  destruct (range_good s own src idx cnt G I C L) as (s' & K & St'). destruct (steps_good _ _ _ _ G St') as ((Dp & _) & M' & R'). rewrite M', R', M, R in Dp.
  exists s'. split; [exact K|]. split; [exact Dp|eapply steps_trans; eassumption].
Qed.
Print Assumptions C140_range_partial.
(** False: a range that goes beyond the pages of the other document fails, and by then all its pages have been appended *)
Theorem C140_beyond_refuted : forall max h root l0 s0 s own src idx cnt, doc_pages max h root l0 -> Z.of_nat (length l0) < 2 ^ 31 -> open_pages max root h = Ok s0 -> steps s0 l0 s (own ++ src) ->
  0 <= idx -> 0 <= cnt -> Z.of_nat (length src) < idx + cnt -> idx + cnt + Z.of_nat (length own) < 2 ^ 32 ->
  exists s', keep_range (Z.of_nat (length own)) (Z.of_nat (length src)) idx cnt s = (Err EPageNotFound, s') /\ doc_pages max (pheap s') root (own ++ src).
Proof.
  intros max h root l0 s0 s own src idx cnt D B O St I C L W. destruct (made_good _ _ _ _ _ _ _ D B O St) as (G & M & R).
  destruct (range_beyond s own src idx cnt G I C L W) as (s' & K & St'). destruct (steps_good _ _ _ _ G St') as ((Dp & _) & M' & R'). rewrite M', R', M, R in Dp.
  exists s'. split; [exact K|exact Dp].
Qed.
Print Assumptions C140_beyond_refuted.
(** False: with the largest number as the number of pages, nothing is appended and a page of this document is lost *)
Theorem C140_all_refuted : forall max h root l0 s0 s own p src, doc_pages max h root l0 -> Z.of_nat (length l0) < 2 ^ 31 -> open_pages max root h = Ok s0 -> steps s0 l0 s ((own ++ [p]) ++ src) ->
  exists s', keep_range (Z.of_nat (length (own ++ [p]))) (Z.of_nat (length src)) 0 (2 ^ 32 - 1) s = (Ok tt, s') /\ doc_pages max (pheap s') root own.
Proof.
  intros max h root l0 s0 s own p src D B O St. destruct (made_good _ _ _ _ _ _ _ D B O St) as (G & M & R).
  destruct (range_all s own p src G) as (s' & K & St'). destruct (steps_good _ _ _ _ G St') as ((Dp & _) & M' & R'). rewrite M', R', M, R in Dp.
  exists s'. split; [exact K|exact Dp].
Qed.
Print Assumptions C140_all_refuted.
(** The document of C38 has the pages 11, 12 and 13; the other one has the pages 3 and 4 below the nodes 1 and 2, which have a box and resources; its
    objects were copied with 20 added *)
Definition the_other : heap := fun r =>
  if snd r =? 0 then
    nth (Z.to_nat (fst r))
      [None; Some (PageProps.a_node [("MediaBox"%string, OArr [ONum 0; ONum 0; ONum 9; ONum 9])] 2 (OArr [ORef 2 0; ORef 4 0]));
       Some (PageProps.a_node [("Parent"%string, ORef 1 0); ("Resources"%string, ODict [(bs "Font", ORef 5 0)])] 1 (OArr [ORef 3 0]));
       Some (PageProps.a_page 2); Some (PageProps.an_object [("Type", OName (bs "Page")); ("Parent", ORef 1 0); ("Rotate", ORef 6 0)]%string); Some (ODict []); Some (ONum 90)] None
  else None.
Definition with_copies : heap := fun r => if ListModel.ref_eqb r (23, 0) then Some (PageProps.a_page 22) else
  if ListModel.ref_eqb r (24, 0) then Some (PageProps.an_object [("Type", OName (bs "Page")); ("Parent", ORef 21 0); ("Rotate", ORef 26 0)]%string) else PageProps.a_document r.
Definition appended : res pages := do s <- open_pages 256 (1, 0) with_copies; append_pages 9 the_other 20 [(3, 0); (4, 0)] s.
Example C140_case :
  match appended with
  | Ok s => map (fun i => fst (get_page_at s i)) [0; 1; 2; 3; 4; 5] = [Ok ((11, 0), 0); Ok ((12, 0), 1); Ok ((13, 0), 2); Ok ((23, 0), 3); Ok ((24, 0), 4); Err EPageNotFound] /\
    pheap s (23, 0) = Some (PageProps.an_object [("Type", OName (bs "Page")); ("Parent", ORef 1 0); ("MediaBox", OArr [ONum 0; ONum 0; ONum 9; ONum 9]); ("Resources", ODict [(bs "Font", ORef 25 0)])]%string) /\
    pheap s (24, 0) = Some (PageProps.an_object [("Type", OName (bs "Page")); ("Parent", ORef 1 0); ("MediaBox", OArr [ONum 0; ONum 0; ONum 9; ONum 9]); ("Rotate", ONum 90)]%string) /\
    (let '(r, s') := keep_range 3 2 1 1 s in r = Ok tt /\ map (fun i => fst (get_page_at s' i)) [3; 4] = [Ok ((24, 0), 3); Err EPageNotFound]) /\
    (let '(r, s') := keep_range 3 2 0 (2 ^ 32 - 1) s in r = Ok tt /\ map (fun i => fst (get_page_at s' i)) [1; 2] = [Ok ((12, 0), 1); Err EPageNotFound])
  | _ => False
  end.
Proof. vm_compute. repeat split; reflexivity. Qed.

(** The conditions of the theorem hold here *)
Example C140_ready : page_tree with_copies (1, 0) PageProps.its_tree /\ Forall (to_append the_other 20 [(11, 0); (12, 0); (13, 0)] with_copies) [(3, 0); (4, 0)].
Proof.
  split.
  - split; [|split; [|split; [reflexivity|exact I]]].
    + unfold PageProps.its_tree. rewrite holds_node. split; [PageProps.an_entry; split; [left; reflexivity|split; [exact I|split; [left; reflexivity|reflexivity]]]|].
      constructor; [rewrite holds_node; split; [PageProps.an_entry; split; [left; reflexivity|split; [reflexivity|split; [left; reflexivity|reflexivity]]]|]|].
      { constructor; [|constructor; [|constructor]]; cbn [holds]; PageProps.an_entry; (split; [left; reflexivity|reflexivity]). }
      constructor; [rewrite holds_node; split; [PageProps.an_entry; split; [left; reflexivity|split; [reflexivity|split; [left; reflexivity|split; reflexivity]]]|constructor]|].
      constructor; [|constructor]. cbn [holds]. PageProps.an_entry. split; [left; reflexivity|reflexivity].
    + cbn. repeat constructor; cbn; intuition congruence.
  - apply Forall_cons; [|apply Forall_cons; [|apply Forall_nil]].
    all: split; [cbn; lia|]. all: split; [cbn; lia|]. all: split; [PageProps.an_entry; left; reflexivity|]. all: split; [vm_compute; intuition discriminate|].
    all: eexists; split; [reflexivity|]; intros k K; unfold AppendSpec.inherited in K; repeat (destruct K as [<-|K]; [eexists; eapply (OwnProofs.found_inherits _ _ 9%nat); vm_compute; reflexivity|]); destruct K.
Qed.

(** ** C141 *)
(** The entries that a page inherits in the other document are in its copy, with the numbers of the references shifted; entries that it does not inherit
    and all others are left as they were copied, but for the parent, which is gone. *)
Theorem C141_inherited : forall look diff p h sd d, look p = Some (ODict sd) -> 0 <= fst p -> 0 <= diff -> fst p + diff < 2 ^ 32 -> h (AppendSpec.moved diff p) = Some (ODict d) -> DictProofs.sorted d ->
  (forall k, In k AppendSpec.inherited -> exists r, OwnSpec.inherits look k sd r) ->
  exists n d', (forall fuel, (n <= fuel)%nat -> adopt_page fuel look diff p h = Ok (set (AppendSpec.moved diff p) (Some (ODict d')) h)) /\
    DictProofs.sorted d' /\ AppendSpec.taken_over look diff sd d d' /\ dict_get (bs "Parent") d' = None.
Proof.
  intros look diff p h sd d L A B C H S K.
  assert (X : forall ks, (forall k, In k ks -> exists r, OwnSpec.inherits look k sd r) -> exists n, forall fuel k, (n <= fuel)%nat -> In k ks -> find_key_parent fuel look k sd = find_key_parent n look k sd /\ find_key_parent n look k sd <> Fuel).
  { induction ks as [|k ks IH]; intros Q; [exists 0%nat; intros f k _ []|]. destruct (IH ltac:(intros q U; apply Q; right; exact U)) as (n & N).
    destruct (Q k (or_introl eq_refl)) as (r & R). apply OwnProofs.inherits_found in R. destruct R as (m & M). exists (n + m)%nat. intros f q F [<-|U].
    - rewrite !M by lia. split; [reflexivity|discriminate].
    - destruct (N f q ltac:(lia) U) as (E1 & E2). destruct (N (n + m)%nat q ltac:(lia) U) as (E3 & _). rewrite E1, E3. split; [reflexivity|exact E2]. }
  destruct (X _ K) as (n & N). destruct (adopt_ok n look diff p h sd d L A B C H S ltac:(intros k Q; exact (proj2 (N n k (le_n n) Q)))) as (d' & E & So & T & P).
  exists n, d'. split; [|repeat (split; [assumption|]); assumption]. intros fuel F. rewrite <- E. unfold adopt_page.
  assert (AK : forall ks d1, (forall k, In k ks -> In k AppendSpec.inherited) -> adopt_keys fuel look diff sd ks d1 = adopt_keys n look diff sd ks d1).
  { induction ks as [|k ks IH]; intros d1 U; [reflexivity|]. cbn [adopt_keys]. rewrite (proj1 (N fuel k F (U k (or_introl eq_refl)))).
    destruct (find_key_parent n look k sd); try reflexivity. cbn [bind]. apply IH. intros q Q. apply U. right. exact Q. }
  unfold dict_at. rewrite L. cbn [bind]. assert (UM : (u32 (fst p + diff), snd p) = AppendSpec.moved diff p) by (unfold AppendSpec.moved; rewrite u32_id by lia; reflexivity).
  rewrite UM, H. rewrite AK by (intros k Q; exact Q). reflexivity.
Qed.
Print Assumptions C141_inherited.
(** False: an entry that the page does not have in its document, it gets from its new parent *)
Theorem C141_foreign_refuted : forall look look' diff sd d d' k up pd v, In k AppendSpec.inherited -> OwnSpec.inherits look k sd None -> AppendSpec.taken_over look diff sd d d' -> DictProofs.sorted d' ->
  dict_get k d = None -> look' up = Some (ODict pd) -> OwnSpec.inherits look' k pd (Some v) ->
  OwnSpec.inherits look' k (dict_add (bs "Parent") (ptr up) d') (Some v).
Proof.
  intros look look' diff sd d d' k up pd v K I (T1 & T2 & T3) S G U V.
  assert (NP : beq k (bs "Parent") = false) by (destruct (beq k (bs "Parent")) eqn:Q; [apply beq_eq in Q; subst k; destruct (parent_not K)|reflexivity]).
  assert (E : forall q, dict_get q (dict_add (bs "Parent") (ptr up) d') = if beq q (bs "Parent") then Some (ptr up) else dict_get q d') by (intros q; apply DictProofs.dict_get_add, S).
  eapply OwnSpec.inh_up; [|apply OwnProofs.dict_find_entry|exact V].
  - apply OwnProofs.find_none. unfold dict_find. rewrite E, NP, (T2 k K I), G. reflexivity.
  - unfold dict_find. rewrite E, beq_refl. unfold ptr. rewrite <- surjective_pairing. exact U.
Qed.
Print Assumptions C141_foreign_refuted.
(** The page 3 has no entry Rotate of its own or inherited; below a node with one it is turned *)
Definition turned : heap := fun r => if ListModel.ref_eqb r (1, 0) then Some (PageProps.a_node [("Rotate"%string, ONum 90)] 3 (OArr [ORef 2 0; ORef 4 0; ORef 13 0])) else with_copies r.
Example C141_case :
  (match dict_at the_other (3, 0) with Ok d => find_key_parent 9 the_other (bs "Rotate") d = Ok None | _ => False end) /\
  match (do s <- open_pages 256 (1, 0) turned; append_pages 9 the_other 20 [(3, 0)] s) with
  | Ok s => match pheap s (23, 0) with Some (ODict d) => dict_get (bs "Rotate") d = None /\ find_key_parent 9 (pheap s) (bs "Rotate") d = Ok (Some (ONum 90)) | _ => False end
  | _ => False
  end.
Proof. vm_compute. repeat split; reflexivity. Qed.
