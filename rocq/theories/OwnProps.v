(** Theorems about containers and ownership. *)
From Coq Require Import String.
From Verif Require Import Base TokModel DictProofs OwnModel OwnSpec OwnProofs OwnPropLemmas.
Local Open Scope Z_scope.

(** ** C34: dictionaries behave as maps *)
Theorem C34_lookup (A : Type) (h : list (dop A)) k x : get_key k (played h) = x <-> current k h x.
Proof. exact (dict_map h k x). Qed.
Print Assumptions C34_lookup.
Theorem C34_has_key (A : Type) (h : list (dop A)) k : has_key k (played h) = true <-> exists v, current k h (Some v).
Proof. exact (dict_has h k). Qed.
Print Assumptions C34_has_key.
Theorem C34_remove_reports (A : Type) (h : list (dop A)) k : fst (remove_key k (played h)) = true <-> exists v, current k h (Some v).
Proof. exact (dict_remove h k). Qed.
Print Assumptions C34_remove_reports.
Theorem C34_keys_once (A : Type) (h : list (dop A)) : NoDup (map fst (played h)).
Proof. exact (dict_once h). Qed.
Print Assumptions C34_keys_once.
Example C34_case :
  let h := [DPut (bs "A") 3; DDel (bs "B"); DPut (bs "C") 5; DPut (bs "B") 2; DPut (bs "A") 1] in
  get_key (bs "A") (played h) = Some 3 /\ get_key (bs "B") (played h) = None /\ get_key (bs "C") (played h) = Some 5 /\
  map fst (played h) = [bs "A"; bs "C"] /\ fst (remove_key (bs "B") (played h)) = false.
Proof. repeat split. Qed.

(** ** C35: equality and inequality *)

(** == compares values, for values without null; missing: null (== to everything) and !=, for which the statement is false. *)
Theorem C35_equal_partial a b : no_null a -> (var_eq a b = true <-> same_value a b).
Proof. exact (equal_partial a b). Qed.
Print Assumptions C35_equal_partial.
Theorem C35_equivalence_partial a b c : no_null a -> no_null b ->
  var_eq a a = true /\ var_eq a b = var_eq b a /\ (var_eq a b = true -> var_eq b c = true -> var_eq a c = true).
Proof. exact (equivalence_partial a b c). Qed.
Print Assumptions C35_equivalence_partial.
Theorem C35_indirect a b ra : c_ref a = Some ra -> c_addr a <> c_addr b -> (obj_eq a b = true <-> c_doc a = c_doc b /\ c_ref b = Some ra).
Proof. exact (indirect_equal a b ra). Qed.
Print Assumptions C35_indirect.
Theorem C35_null_refuted : exists a b, var_eq a b = true /\ var_eq b a = false /\ ~ same_value a b.
Proof. exact null_refuted. Qed.
Print Assumptions C35_null_refuted.
Theorem C35_both_refuted : exists a b, c_ref a = None /\ c_ref b = None /\ same_value (c_val a) (c_val b) /\ obj_eq a b = true /\ obj_ne a b = true.
Proof. exact not_equal_refuted. Qed.
Print Assumptions C35_both_refuted.
Theorem C35_direct_indirect_refuted : exists a b, same_value (c_val a) (c_val b) /\ obj_eq a b = false /\ obj_eq b a = true.
Proof. exact mixed_refuted. Qed.
Print Assumptions C35_direct_indirect_refuted.
Example C35_case :
  let a := ODict [(bs "A", OArr [ONum 1; OReal 150 2; OStr true (bs "x")])] in
  let b := ODict [(bs "A", OArr [ONum 1; OReal 15 1; OStr false (bs "x")])] in
  no_null a /\ same_value a b /\ var_eq a b = true /\ var_eq a (ODict [(bs "A", OArr [ONum 1; OReal 15 1; OStr false (bs "y")])]) = false /\
  var_eq a (ODict [(bs "A", OArr [ONum 1; OReal 15 1])]) = false.
Proof. split; [repeat constructor|]. split; [repeat constructor|]. repeat split. Qed.

(** ** C36: every modification marks the object dirty *)

(** For modifications that leave array elements where they are; missing: those that move them, where it is false. *)
Theorem C36_dirty_partial s c : history s c -> c = true -> snd s = true.
Proof. exact (dirty_partial s c). Qed.
Print Assumptions C36_dirty_partial.
Theorem C36_growth_refuted : exists n l s s', rooted n /\ runs l (n, false) = Some s /\ runs [None; Some ([AtIdx 0], OpSet (ONum 7))] s = Some s' /\
  content (fst s') <> content (fst s) /\ snd s' = false.
Proof. exact growth_refuted. Qed.
Print Assumptions C36_growth_refuted.
Theorem C36_insert_refuted : exists n l s s', rooted n /\ runs l (n, false) = Some s /\ runs [None; Some ([AtIdx 2], OpSet (ONum 7))] s = Some s' /\
  content (fst s') <> content (fst s) /\ snd s' = false.
Proof. exact insert_refuted. Qed.
Print Assumptions C36_insert_refuted.
Theorem C36_resize_refuted : exists n s', rooted n /\ runs [Some ([], OpResize 1)] (n, false) = Some s' /\ content (fst s') <> content n /\ snd s' = false.
Proof. exact resize_refuted. Qed.
Print Assumptions C36_resize_refuted.
Definition nested : node := copy (Dic false true true [(bs "A", Arr true true true 0 [Leaf true true (ONum 1); Dic true true true [(bs "B", Leaf true true (ONum 2))]])]).
Example C36_case : exists s, runs [None; Some ([AtKey (bs "A"); AtIdx 1; AtKey (bs "B")], OpSet (ONum 7))] (nested, true) = Some s /\
  history s true /\ content (fst s) = ODict [(bs "A", OArr [ONum 1; ODict [(bs "B", ONum 7)]])] /\ snd s = true.
Proof.
  eexists. split; [reflexivity|]. split; [|split; reflexivity].
  eapply (hi_op (nested, false) false [AtKey (bs "A"); AtIdx 1; AtKey (bs "B")] (OpSet (ONum 7))).
  - apply (hi_reset (nested, true) false). apply hi_new. repeat constructor.
  - reflexivity.
  - exact Logic.I.
  - reflexivity.
  - discriminate.
  - reflexivity.
Qed.

(** ** C62: inherited attributes *)

(** The attribute is that of the nearest ancestor, whenever there is one or the chain of parents ends; missing: chains
    that do not end, on which the code does not either. *)
Theorem C62_nearest_partial look k d r : (exists fuel, find_key_parent fuel look k d = Ok r) <-> inherits look k d r.
Proof. exact (inherited_partial look k d r). Qed.
Print Assumptions C62_nearest_partial.
Theorem C62_terminates_partial look k d r : inherits look k d r -> exists n, forall fuel, (n <= fuel)%nat -> find_key_parent fuel look k d = Ok r.
Proof. exact (inherited_stable look k d r). Qed.
Print Assumptions C62_terminates_partial.
Theorem C62_cycle_refuted : exists look d, look (1, 0) = Some (ODict d) /\ forall fuel, find_key_parent fuel look (bs "Rotate") d = Fuel.
Proof. exact inherited_refuted. Qed.
Print Assumptions C62_cycle_refuted.
Example C62_case :
  let look := fun r : Z * Z => if fst r =? 1 then Some (ODict [(bs "Rotate", ONum 90); (bs "Parent", ORef 2 0)]) else None in
  find_key_parent 5 look (bs "Rotate") [(bs "Parent", ORef 1 0)] = Ok (Some (ONum 90)) /\
  find_key_parent 5 look (bs "CropBox") [(bs "Parent", ORef 1 0)] = Ok None /\
  inherits look (bs "Rotate") [(bs "Parent", ORef 1 0)] (Some (ONum 90)).
Proof. split; [reflexivity|]. split; [reflexivity|]. apply C62_nearest_partial. exists 5%nat. reflexivity. Qed.

(** ** C72: assigning one part of a value to another *)

(** When none is inside the other; missing: otherwise freed memory is read. *)
Theorem C72_assign_partial tgt src n t s : get_at tgt n = Some t -> get_at src n = Some s -> apart tgt src ->
  exists n' t', assign_within tgt src n = Ok n' /\ get_at tgt n' = Some t' /\ content t' = content s /\
    (forall p, apart tgt p -> get_at p n' = get_at p n).
Proof. exact (within_partial tgt src n t s). Qed.
Print Assumptions C72_assign_partial.
Theorem C72_self_refuted : exists n t, get_at [AtIdx 0] n = Some t /\ assign_within [AtIdx 0] [AtIdx 0] n = UB.
Proof. exact within_refuted. Qed.
Print Assumptions C72_self_refuted.
Theorem C72_child_refuted tgt r n t s : get_at tgt n = Some t -> get_at (tgt ++ r) n = Some s -> r <> [] -> assign_within tgt (tgt ++ r) n = UB.
Proof. exact (within_child_refuted tgt r n t s). Qed.
Print Assumptions C72_child_refuted.
Theorem C72_parent_refuted src r n t s : get_at (src ++ r) n = Some t -> get_at src n = Some s -> r <> [] -> assign_within (src ++ r) src n = UB.
Proof. exact (within_parent_refuted src r n t s). Qed.
Print Assumptions C72_parent_refuted.
Example C72_case : exists n', assign_within [AtIdx 0] [AtIdx 1] (Arr false true true 2 [Leaf true true (ONum 1); Leaf true true (OName (bs "N"))]) = Ok n' /\
  content n' = OArr [OName (bs "N"); OName (bs "N")] /\ apart [AtIdx 0] [AtIdx 1].
Proof. eexists. split; [reflexivity|]. split; [reflexivity|]. exists [], (AtIdx 0), (AtIdx 1), [], []. repeat split. discriminate. Qed.

(** ** C73: references inside a value resolve *)

(** While all links are there; missing: after array elements have moved. *)
Theorem C73_resolve_partial look n p pa dx w m k d : rooted n -> doc n = true -> get_at p n = Some (Dic pa dx w m) -> content (Dic pa dx w m) = ODict d ->
  (forall v, entry look d k v -> node_find look k (Dic pa dx w m) = Ok (Some v)) /\
  ((forall v, ~ entry look d k v) -> node_find look k (Dic pa dx w m) = Ok None).
Proof. exact (resolve_partial look n p pa dx w m k d). Qed.
Print Assumptions C73_resolve_partial.
Theorem C73_histories_partial s c look p pa dx w m k : history s c -> doc (fst s) = true -> get_at p (fst s) = Some (Dic pa dx w m) ->
  exists r, node_find look k (Dic pa dx w m) = Ok r.
Proof.
  intros H D G. destruct (history_dirty s c H) as [R _]. destruct (resolve_partial look _ p pa dx w m k _ R D G eq_refl) as [A B].
  destruct (dict_find look k (map (fun kv => (fst kv, content (snd kv))) m)) as [v|] eqn:E.
  - apply dict_find_entry in E. eauto.
  - exists None. apply B. apply (proj1 (find_none look _ k) E).
Qed.
Print Assumptions C73_histories_partial.
Theorem C73_growth_refuted : exists n l s x look v, rooted n /\ doc n = true /\ runs l (n, false) = Some s /\ get_at [AtIdx 0] (fst s) = Some x /\
  (exists d, content x = ODict d /\ entry look d (bs "Next") v) /\ node_find look (bs "Next") x = Err EInvalidHandle.
Proof. exact resolve_refuted. Qed.
Print Assumptions C73_growth_refuted.
Example C73_case : exists s x, runs [Some ([], OpAdd ref_dict); Some ([], OpAdd (Leaf false false (ONum 2)))] (Arr false true true 2 [], false) = Some s /\
  get_at [AtIdx 0] (fst s) = Some x /\ node_find (fun _ => Some (ONum 9)) (bs "Next") x = Ok (Some (ONum 9)).
Proof. eexists. eexists. repeat split. Qed.

(** ** C74: arrays behave as lists, whatever moves *)
Theorem C74_add x n n' b : run_op (OpAdd x) n = Some (n', b) -> exists l, content n = OArr l /\ content n' = OArr (l ++ [content x]).
Proof. exact (array_add x n n' b). Qed.
Print Assumptions C74_add.
Theorem C74_insert i x n n' b : run_op (OpInsert i x) n = Some (n', b) ->
  exists l1 l2, length l1 = i /\ content n = OArr (l1 ++ l2) /\ content n' = OArr (l1 ++ content x :: l2).
Proof. exact (array_insert i x n n' b). Qed.
Print Assumptions C74_insert.
Theorem C74_remove_at i n n' b : run_op (OpErase i) n = Some (n', b) ->
  exists l1 v l2, length l1 = i /\ content n = OArr (l1 ++ v :: l2) /\ content n' = OArr (l1 ++ l2).
Proof. exact (array_erase i n n' b). Qed.
Print Assumptions C74_remove_at.
Theorem C74_set_at i x n n' b : run_op (OpSetAt i x) n = Some (n', b) ->
  exists l1 v l2, length l1 = i /\ content n = OArr (l1 ++ v :: l2) /\ content n' = OArr (l1 ++ content x :: l2).
Proof. exact (array_set i x n n' b). Qed.
Print Assumptions C74_set_at.
Theorem C74_out_of_range i x n : (forall l, content n = OArr l -> (length l < i)%nat) -> (forall p d o, n <> Leaf p d o) ->
  run_op (OpInsert i x) n = None /\ run_op (OpErase i) n = None /\ run_op (OpSetAt i x) n = None.
Proof. exact (array_range i x n). Qed.
Print Assumptions C74_out_of_range.
Theorem C74_add_key k x p d w m n' b : sorted m -> run_op (OpPut k x) (Dic p d w m) = Some (n', b) ->
  exists e e', content (Dic p d w m) = ODict e /\ content n' = ODict e' /\ get_key k e' = Some (content x) /\ (forall q, q <> k -> get_key q e' = get_key q e).
Proof. exact (dict_put k x p d w m n' b). Qed.
Print Assumptions C74_add_key.
Example C74_case : exists s, runs [Some ([], OpAdd (Leaf false false (ONum 1))); Some ([], OpAdd (Leaf false false (ONum 2))); Some ([], OpInsert 1 (Leaf false false (ONum 3)));
  Some ([], OpErase 0); Some ([], OpSetAt 1 (Leaf false false (ONum 4)))] (Arr false true true 0 [], false) = Some s /\ content (fst s) = OArr [ONum 3; ONum 4].
Proof. eexists. split; reflexivity. Qed.
