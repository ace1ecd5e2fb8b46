(** Properties of the page tree *)
From Coq Require Import String.
From Verif Require Import Base TokModel DictProofs OwnModel ListModel PageModel PageSpec PageProofs PageOpProofs PageDelProofs PagePropLemmas PageHostile.
Local Open Scope Z_scope.

(** A document with the pages 11, 12 and 13: the root 1 has the node 2 with 11 and 12, an empty node 4 with its kids
    in the object 9, and the page 13 *)
Definition an_object (l : list (string * obj)) : obj := ODict (fold_left (fun d e => dict_add (bs (fst e)) (snd e) d) l []).
Definition a_page (up : Z) : obj := an_object [("Type", OName (bs "Page")); ("Parent", ORef up 0)]%string.
Definition a_node (up : list (string * obj)) (n : Z) (kids : obj) : obj :=
  an_object (up ++ [("Type", OName (bs "Pages")); ("Count", ONum n); ("Kids", kids)]%string).
Definition a_document : heap := fun r =>
  if snd r =? 0 then
    nth (Z.to_nat (fst r))
      [None; Some (a_node [] 3 (OArr [ORef 2 0; ORef 4 0; ORef 13 0])); Some (a_node [("Parent"%string, ORef 1 0)] 2 (OArr [ORef 11 0; ORef 12 0]));
       None; Some (a_node [("Parent"%string, ORef 1 0)] 0 (ORef 9 0)); None; None; None; None; Some (OArr []); None;
       Some (a_page 2); Some (a_page 2); Some (a_page 1); Some (a_page 77); Some (a_page 78)] None
  else None.
Definition its_tree : tree := Node (1, 0) None [Node (2, 0) None [Leaf (11, 0); Leaf (12, 0)]; Node (4, 0) (Some (9, 0)) []; Leaf (13, 0)].
Lemma a_sorted l : sorted (fold_left (fun d (e : string * obj) => dict_add (bs (fst e)) (snd e) d) l []).
Proof.
  assert (X : forall l d, sorted d -> sorted (fold_left (fun d (e : string * obj) => dict_add (bs (fst e)) (snd e) d) l d)).
  { induction l0 as [|e l0 IH]; intros d S1; [exact S1|]. cbn [fold_left]. apply IH, dict_add_sorted, S1. }
  apply X, sorted_nil.
Qed.
Ltac an_entry := eexists; split; [reflexivity|split; [apply a_sorted|]].
Lemma a_document_ok : page_tree a_document (1, 0) its_tree.
Proof.
  split; [|split; [|split; [reflexivity|exact I]]].
  - unfold its_tree. rewrite holds_node. split; [an_entry; split; [left; reflexivity|split; [exact I|split; [left; reflexivity|reflexivity]]]|].
    constructor; [rewrite holds_node; split; [an_entry; split; [left; reflexivity|split; [reflexivity|split; [left; reflexivity|reflexivity]]]|]|].
    { constructor; [|constructor; [|constructor]]; cbn [holds]; an_entry; (split; [left; reflexivity|reflexivity]). }
    constructor; [rewrite holds_node; split; [an_entry; split; [left; reflexivity|split; [reflexivity|split; [left; reflexivity|split; reflexivity]]]|constructor]|].
    constructor; [|constructor]. cbn [holds]. an_entry. split; [left; reflexivity|reflexivity].
  - cbn. repeat constructor; cbn; intuition congruence.
Qed.

(** ** C38 *)
(** The operations on a well-formed tree are those on the list of its pages: the tree stays well-formed, so the counts,
    parents and types in all nodes are right afterwards; only objects of the tree and the new pages are changed, and of
    the pages only the new ones, in their entry /Parent.
    Missing: trees with more levels than the recursion guard allows, see below. *)
Theorem C38_tree_partial max h root t : page_tree h root t -> (depth t <= max)%nat -> Z.of_nat (length (leaves t)) < 2 ^ 31 ->
  count_at h root = Ok (Z.of_nat (length (leaves t))) /\
  (forall i, 0 <= i ->
    match nth_error (leaves t) (Z.to_nat i) with
    | Some r => exists ps, page_node max h i root [] = Ok (Some (r, ps))
    | None => page_node max h i root [] = Ok None
    end) /\
  (forall i ps, 0 <= i -> insertable h (leaves t) ps ->
    exists i' h' t', insert_pages_at max root h i ps = Ok (Some (i', h')) /\
      page_tree h' root t' /\ leaves t' = insert_at (Nat.min (Z.to_nat i) (length (leaves t))) ps (leaves t) /\ (depth t' <= depth t)%nat /\
      (forall q, ~ In q (refs t) -> ~ In q ps -> h' q = h q) /\ (forall q, In q (leaves t) -> h' q = h q) /\
      (forall p d, In p ps -> h p = Some (ODict d) -> exists up, h' p = Some (ODict (dict_add (bs "Parent") (ptr up) d)))) /\
  (forall i, 0 <= i ->
    if i <? Z.of_nat (length (leaves t))
    then exists h' t', remove_page_at max root h i = Ok h' /\
      page_tree h' root t' /\ leaves t' = remove_at (Z.to_nat i) (leaves t) /\ (depth t' <= depth t)%nat /\
      (forall q, ~ In q (refs t) -> h' q = h q) /\ (forall q, In q (leaves t) -> h' q = h q)
    else remove_page_at max root h i = Err EPageNotFound).
Proof. exact (tree_ops max h root t). Qed.
Print Assumptions C38_tree_partial.
Example C38_case : page_tree a_document (1, 0) its_tree /\ (depth its_tree <= 256)%nat /\ leaves its_tree = [(11, 0); (12, 0); (13, 0)] /\ insertable a_document (leaves its_tree) [(14, 0); (15, 0)] /\
  match insert_pages_at 256 (1, 0) a_document 1 [(14, 0); (15, 0)] with
  | Ok (Some (1, h)) => h (2, 0) = Some (a_node [("Parent"%string, ORef 1 0)] 4 (OArr [ORef 11 0; ORef 14 0; ORef 15 0; ORef 12 0])) /\ count_at h (1, 0) = Ok 5 /\
    page_node 256 h 4 (1, 0) [] = Ok (Some ((13, 0), [(1, 0)])) /\ h (14, 0) = Some (a_page 2)
  | _ => False
  end /\
  match remove_page_at 256 (1, 0) a_document 2 with
  | Ok h => h (1, 0) = Some (a_node [] 2 (OArr [ORef 2 0; ORef 4 0])) /\ page_node 256 h 2 (1, 0) [] = Ok None /\ remove_page_at 256 (1, 0) h 2 = Err EPageNotFound
  | _ => False
  end.
Proof.
  split; [exact a_document_ok|]. split; [cbn; lia|]. split; [reflexivity|]. split.
  { split; [discriminate|]. split; [repeat constructor; cbn; intuition congruence|]. split; [|cbn; lia].
    constructor; [|constructor; [|constructor]]; (split; [an_entry; left; reflexivity|cbn; intuition congruence]). }
  split; vm_compute; repeat split; reflexivity.
Qed.

(** Whatever the limit, a tree with one more level is refused although it is well-formed and has one page *)
Theorem C38_deep_refuted max : exists h root t r, page_tree h root t /\ leaves t = [r] /\ depth t = S max /\ count_at h root = Ok 1 /\ page_node max h 0 root [] = Err EInvalidXRef /\
  forall ps, insertable h [r] ps -> insert_pages_at max root h 0 ps = Err EInvalidXRef.
Proof. exact (deep_fails max). Qed.
Print Assumptions C38_deep_refuted.

(** ** C39 *)
(** For any object graph the lookup ends: with a page (then it is a /Page below the root, reached through different nodes,
    at most as many as the guard allows), without one, or with an error. *)
Theorem C39_any_graph max h root i : h root <> None ->
  match page_node max h i root [] with
  | Ok (Some (page, ps)) => kid_chain h root ps page /\ ps <> [] /\ NoDup ps /\ (length ps <= max)%nat /\
      exists d, h page = Some (ODict d) /\ value_of h d "Type" (OName (bs "Page"))
  | Ok None => True
  | Err _ => True
  | UB => False
  | Fuel => False
  end.
Proof. exact (any_graph max h root i). Qed.
Print Assumptions C39_any_graph.
(** The guard is not what ends it: with more levels allowed than there are objects it is never hit, since a node is not
    entered twice *)
Theorem C39_unguarded max h root i l : h root <> None -> (forall q, h q <> None -> In q l) -> (length l < max)%nat -> page_node max h i root [] <> Err EInvalidXRef.
Proof. exact (any_unguarded max h root i l). Qed.
Print Assumptions C39_unguarded.
(** A node that is its own kid, and two nodes that are kids of each other *)
Definition a_loop : heap := fun r =>
  if snd r =? 0 then
    nth (Z.to_nat (fst r)) [None; Some (a_node [] 5 (OArr [ORef 1 0])); Some (a_node [] 5 (OArr [ORef 3 0])); Some (a_node [] 7 (OArr [ORef 5 0; ORef 2 0])); None; Some (a_page 3)] None
  else None.
Example C39_case : page_node 256 a_loop 0 (1, 0) [] = Err EPageNotFound /\ page_node 256 a_loop 3 (2, 0) [] = Err EPageNotFound /\
  page_node 256 a_loop 0 (2, 0) [] = Ok (Some ((5, 0), [(2, 0); (3, 0)])) /\ page_node 256 a_loop 6 (2, 0) [] = Ok None /\ page_node 1 a_loop 0 (2, 0) [] = Err EInvalidXRef.
Proof. vm_compute. repeat split; reflexivity. Qed.

(** ** C40 *)
(** After any history of insertions, removals, fetches and changes to other objects, the pages are those of the list the
    history stands for: fetching by index (through the cache) gives the page of the list, as a fresh lookup does, fetching
    by reference finds exactly the pages of the list, and the next operations do not fail. *)
Theorem C40_history max root h l s s' l' : doc_pages max h root l -> Z.of_nat (length l) < 2 ^ 31 -> open_pages max root h = Ok s -> steps s l s' l' ->
  doc_pages max (pheap s') root l' /\ page_count s' = Ok (Z.of_nat (length l')) /\
  (forall i, 0 <= i ->
    match nth_error l' (Z.to_nat i) with
    | Some r => (exists j s'', get_page_at s' i = (Ok (r, j), s'')) /\ exists ps, page_node max (pheap s') i root [] = Ok (Some (r, ps))
    | None => exists s'', get_page_at s' i = (Err EPageNotFound, s'')
    end) /\
  (forall r, exists s'', (In r l' -> exists j, get_page_ref s' r = (Ok (r, j), s'')) /\ (~ In r l' -> get_page_ref s' r = (Err EPageNotFound, s''))) /\
  (forall i ps, 0 <= i -> insertable (pheap s') l' ps -> exists s'', insert_pages s' i ps = Ok s'') /\
  (forall i r box, 0 <= i -> pheap s' r = None -> Z.of_nat (length l' + 1) < 2 ^ 31 -> exists s'', create_page_at s' i r box = Ok s'') /\
  (forall i, 0 <= i < Z.of_nat (length l') -> exists s'', remove_page s' i = (Ok tt, s'')).
Proof. exact (history_ok max root h l s s' l'). Qed.
Print Assumptions C40_history.
Theorem C40_opens max root h l : doc_pages max h root l -> Z.of_nat (length l) < 2 ^ 31 -> exists s, open_pages max root h = Ok s.
Proof. exact (opens max root h l). Qed.
Print Assumptions C40_opens.
(** All pages fetched; then a page created in front, one inserted, one removed *)
Definition a_history : option pages :=
  match open_pages 256 (1, 0) a_document with
  | Ok s =>
    let s := snd (get_page_at s 0) in let s := snd (get_page_at s 1) in let s := snd (get_page_at s 2) in
    match create_page_at s 0 (20, 0) (OArr []) with
    | Ok s => match insert_pages s 2 [(14, 0)] with Ok s => Some (snd (remove_page s 3)) | _ => None end
    | _ => None
    end
  | _ => None
  end.
Example C40_case : match a_history with
  | Some s => page_count s = Ok 4 /\ map (fun i => fst (get_page_at s i)) [0; 1; 2; 3; 4] = [Ok ((20, 0), 0); Ok ((11, 0), 0); Ok ((14, 0), 2); Ok ((13, 0), 2); Err EPageNotFound] /\
    length (pcache s) = 4%nat /\ cached (pcache s) 3 = Some ((13, 0), 2)
  | None => False
  end.
Proof. vm_compute. repeat split; reflexivity. Qed.

(** The index a page object was made with is not kept up to date *)
Theorem C40_index_refuted : exists max root h l s s' i r j s'', doc_pages max h root l /\ Z.of_nat (length l) < 2 ^ 31 /\ open_pages max root h = Ok s /\
  (exists l', steps s l s' l' /\ nth_error l' (Z.to_nat i) = Some r) /\ get_page_at s' i = (Ok (r, j), s'') /\ j <> i.
Proof.
  destruct (open_good 256 (1, 0) a_document [(11, 0); (12, 0); (13, 0)]) as (s & O & G & PM & PR & PH); [exists its_tree; split; [exact a_document_ok|split; [reflexivity|cbn; lia]]|cbn; lia|].
  assert (ES : s = mk_pages 256 (1, 0) a_document (new_cache 3)) by (vm_compute in O; injection O as <-; reflexivity).
  exists 256%nat, (1, 0), a_document, [(11, 0); (12, 0); (13, 0)], s.
  destruct (create_good (snd (get_page_at s 0)) [(11, 0); (12, 0); (13, 0)] 0 (20, 0) (OArr [])) as (s' & C & _).
  { destruct (get_at_ok s _ 0 G ltac:(lia)) as (s1 & G1 & _ & j & X). cbn in X. rewrite X. exact G1. }
  { lia. } { subst s. reflexivity. } { cbn. lia. }
  exists s', 1, (11, 0), 0, s'. split; [exists its_tree; split; [exact a_document_ok|split; [reflexivity|cbn; lia]]|]. split; [cbn; lia|]. split; [exact O|]. split.
  - exists [(20, 0); (11, 0); (12, 0); (13, 0)]. split; [|reflexivity].
    eapply steps_more; [eapply steps_more; [apply steps_none|eapply (step_get s _ 0 (snd (get_page_at s 0))); [lia|apply surjective_pairing]]|].
    change [(20, 0); (11, 0); (12, 0); (13, 0)] with (insert_at (Nat.min (Z.to_nat 0) (length [(11, 0); (12, 0); (13, 0)])) [(20, 0)] [(11, 0); (12, 0); (13, 0)]).
    eapply (step_create _ _ 0 (20, 0) (OArr [])); [lia|subst s; reflexivity|cbn; lia|exact C].
  - split; [|lia]. subst s. apply (ok_value (mk_pages 0 (0, 0) a_document [])) in C. subst s'. vm_compute. reflexivity.
Qed.
Print Assumptions C40_index_refuted.

(** ** C83 *)
(** The resources of a page are its own or those of its nearest parent; a page where no node has any gets none.
    Missing: resources of ancestors farther up, see below. *)
Theorem C83_resources_partial h page parents : Forall (fun q => exists d, h q = Some (ODict d)) parents ->
  (forall v, inherits h "Resources" (firstn 2 (page :: rev parents)) v -> page_resources h page parents = Ok (Some v)) /\
  (Forall (fun q => lacks_entry h q "Resources") (page :: parents) -> page_resources h page parents = Ok None).
Proof. intros F. split; [intros v; exact (resources_near h page parents v F)|exact (resources_none h page parents)]. Qed.
Print Assumptions C83_resources_partial.
Definition an_heir (own near : list (string * obj)) : heap := fun r =>
  if snd r =? 0 then
    nth (Z.to_nat (fst r))
      [None; Some (a_node [("Resources"%string, ODict [])] 1 (OArr [ORef 2 0])); Some (a_node (("Parent"%string, ORef 1 0) :: near) 1 (OArr [ORef 3 0]));
       Some (an_object (("Type", OName (bs "Page")) :: ("Parent", ORef 2 0) :: own)%string); Some (ODict [(bs "Font", ONull)])] None
  else None.
Example C83_case : page_resources (an_heir [] [("Resources"%string, ORef 4 0)]) (3, 0) [(1, 0); (2, 0)] = Ok (Some (ODict [(bs "Font", ONull)])) /\
  inherits (an_heir [] [("Resources"%string, ORef 4 0)]) "Resources" [(3, 0); (2, 0)] (ODict [(bs "Font", ONull)]).
Proof.
  split; [reflexivity|]. apply inh_up; [eexists; split; reflexivity|]. apply inh_here. eexists. split; [reflexivity|]. split; [discriminate|]. right. exists (4, 0). split; reflexivity.
Qed.
(** Resources of the grandparent are not seen: the loop over the parents ends with what the nearest one has *)
Theorem C83_far_refuted : exists h root t page parents v, page_tree h root t /\ leaves t = [page] /\ page_node 256 h 0 root [] = Ok (Some (page, parents)) /\
  inherits h "Resources" (page :: rev parents) v /\ page_resources h page parents = Ok None.
Proof.
  exists (an_heir [] []), (1, 0), (Node (1, 0) None [Node (2, 0) None [Leaf (3, 0)]]), (3, 0), [(1, 0); (2, 0)], (ODict []).
  split; [split; [|split; [|split; [reflexivity|exact I]]]|].
  - rewrite holds_node. split; [an_entry; split; [left; reflexivity|split; [exact I|split; [left; reflexivity|reflexivity]]]|].
    constructor; [|constructor]. rewrite holds_node; split; [an_entry; split; [left; reflexivity|split; [reflexivity|split; [left; reflexivity|reflexivity]]]|].
    constructor; [|constructor]. cbn [holds]. an_entry. split; [left; reflexivity|reflexivity].
  - cbn. repeat constructor; cbn; intuition congruence.
  - split; [reflexivity|]. split; [reflexivity|]. split; [|reflexivity]. apply inh_up; [eexists; split; reflexivity|]. apply inh_up; [eexists; split; reflexivity|].
    apply inh_here. eexists. split; [reflexivity|]. split; [discriminate|]. left. reflexivity.
Qed.
Print Assumptions C83_far_refuted.

(** ** C84 *)
(** The number of a page, counted from the page up, is its place in the list of pages. The root has no /Parent. *)
Theorem C84_page_numbers h root t rd i page : page_tree h root t -> (depth t <= 1000)%nat -> Z.of_nat (length (leaves t)) < 2 ^ 31 ->
  h root = Some (ODict rd) -> dict_get (bs "Parent") rd = None -> 0 <= i -> nth_error (leaves t) (Z.to_nat i) = Some page -> page_number h page = Ok (i + 1).
Proof. exact (numbers_ok h root t rd i page). Qed.
Print Assumptions C84_page_numbers.
Example C84_case : map (page_number a_document) [(11, 0); (12, 0); (13, 0)] = [Ok 1; Ok 2; Ok 3] /\ depth its_tree = 2%nat.
Proof. vm_compute. split; reflexivity. Qed.
(** The parents of two nodes that name each other are not followed forever *)
Theorem C84_ends h page : match page_number h page with UB | Fuel => h page = None | _ => True end.
Proof. exact (number_ends h page). Qed.
Print Assumptions C84_ends.
Definition an_endless : heap := fun r => if snd r =? 0 then Some (an_object [("Parent"%string, ORef (1 - fst r) 0); ("Kids"%string, OArr [ORef (1 - fst r) 0; ORef (fst r) 0])]) else None.
Example C84_ends_case : page_number an_endless (1, 0) = Err EBrokenFile.
Proof. vm_compute. reflexivity. Qed.
