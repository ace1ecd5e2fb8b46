(** Properties of name trees *)
From Coq Require Import String Sorting.Sorted.
From Verif Require Import Base ChainProofs TokModel DictProofs OwnModel ListModel PageModel PageSpec PageProofs NameModel NameSpec NameProofs NameOpProofs NamePropLemmas.
Local Open Scope Z_scope.

(** ** C41 *)
(** A sequence of additions to an empty root or to any well-formed tree never fails. What is there afterwards is a
    well-formed tree, it returns the last value for each key, then what was there before, and nothing for other keys; the
    limits of its nodes enclose the keys below; the dictionary made of it has the same values; objects outside of the
    tree are unchanged. *)
Theorem C41_map root (hist : list entry) s on l m n : tree_at (dheap s) root on l m -> (forall q, dnext s <= fst q -> dheap s q = None) ->
  (Nat.max 1 m + length hist <= n)%nat -> hist <> [] \/ l <> [] ->
  exists s' t, add_all n s root hist = Ok s' /\ name_tree (dheap s') root t /\ (levels t <= Nat.max 1 m + length hist)%nat /\
    (forall q, get_value n (dheap s') root q = Ok (followed (dheap s') (match last_value q hist with Some v => Some v | None => lookup q l end))) /\
    (forall u, node_of u t -> enclosed (dheap s') u) /\
    (forall guard, (levels t <= guard)%nat -> exists d, to_dictionary guard (dheap s') root = Ok d /\
      forall q, dict_get q d = match last_value q hist with Some v => Some v | None => lookup q l end) /\
    (forall q, In q (nrefs t) -> In q on \/ dnext s <= fst q) /\ (forall q, ~ In q on -> fst q < dnext s -> dheap s' q = dheap s q).
Proof. exact (name_map root hist s on l m n). Qed.
Print Assumptions C41_map.
(** Values which are not references are returned as they are *)
Theorem C41_value h v : (forall n g, v <> Some (ORef n g)) -> followed h v = v.
Proof. exact (followed_value h v). Qed.
Print Assumptions C41_value.
(** The empty root itself raises an error when a key is asked for *)
Theorem C41_empty_refuted : exists h root, blank h root /\ forall n q, get_value (S n) h root q = Err ENoObject.
Proof. exact empty_refuted. Qed.
Print Assumptions C41_empty_refuted.

(** 70 keys in an order that is not theirs: with 66 entries the leaf is split *)
Definition a_key (i : nat) : str := (false, [Z.of_nat i / 10 + 48; Z.of_nat i mod 10 + 48]).
Definition some_adds : list entry := map (fun i => (a_key ((i * 37) mod 70), ONum (Z.of_nat i))) (seq 0 70) ++ [(a_key 5, OBool true); ((true, bs "05"), OName (bs "five"))].
Definition a_start : doc := mk_doc (fun r => if ref_eqb r (1, 0) then Some (ODict []) else None) 2.
Example C41_case : exists s, add_all 80 a_start (1, 0) some_adds = Ok s /\
  get_value 3 (dheap s) (1, 0) (bs "05") = Ok (Some (OName (bs "five"))) /\ get_value 3 (dheap s) (1, 0) (bs "37") = Ok (Some (ONum 1)) /\
  get_value 3 (dheap s) (1, 0) (bs "7") = Ok None /\ dnext s = 4 /\
  get_key (bs "Kids") (match dheap s (1, 0) with Some (ODict d) => d | _ => [] end) = Some (OArr [ORef 2 0; ORef 3 0]) /\
  get_key (bs "Limits") (match dheap s (2, 0) with Some (ODict d) => d | _ => [] end) = Some (OArr [OStr false (bs "00"); OStr false (bs "34")]).
Proof. eexists. split; [vm_compute; reflexivity|]. vm_compute. auto 10. Qed.

(** ** C85 *)
(** The dictionary of a tree is made of every graph of objects, or an error is raised *)
Theorem C85_dictionary guard h root : (exists o, h root = Some o) -> (exists d, to_dictionary guard h root = Ok d) \/ exists e, to_dictionary guard h root = Err e.
Proof. exact (dictionary_total guard h root). Qed.
Print Assumptions C85_dictionary.
(** Lookup and addition do not end in a graph with a loop, and read behind an array of names with an odd number of elements *)
Theorem C85_loop_refuted : exists h root, (forall n q, get_value n h root q = Fuel) /\ (forall n s k v, dheap s = h -> add_to_tree n s root k v = Fuel) /\
  (exists e, to_dictionary 256 h root = Err e).
Proof. exact loop_refuted. Qed.
Print Assumptions C85_loop_refuted.
Theorem C85_odd_refuted : exists h root, (forall n, get_value (S n) h root (bs "a") = UB) /\ (forall n v, add_to_tree (S n) (mk_doc h 9) root (false, bs "a") v = UB) /\
  exists d, to_dictionary 256 h root = Ok d.
Proof. exact odd_refuted. Qed.
Print Assumptions C85_odd_refuted.
Example C85_case : to_dictionary 2 (fun r => if ref_eqb r (1, 0) then Some (ODict [(bs "Kids", OArr [ORef 1 0])]) else None) (1, 0) = Err EInvalidXRef.
Proof. reflexivity. Qed.
