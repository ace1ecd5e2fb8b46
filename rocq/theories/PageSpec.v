(** What a page tree is and what its operations mean *)
From Coq Require Import String.
From Verif Require Import Base TokModel DictProofs ListModel PageModel.
Local Open Scope Z_scope.

(** ** Page trees as in ISO 32000-1, 7.7.3 *)

(** A page, or a node with its kids; [a] is the object that holds the array of kids if it is an indirect one *)
Inductive tree := Leaf (r : ref) | Node (r : ref) (a : option ref) (ks : list tree).
Definition tref (t : tree) : ref := match t with Leaf r => r | Node r _ _ => r end.
(** The pages in order *)
Fixpoint leaves (t : tree) : list ref := match t with Leaf r => [r] | Node _ _ ks => flat_map leaves ks end.
(** The objects the tree is made of *)
Definition opt (a : option ref) : list ref := match a with Some r => [r] | None => [] end.
Fixpoint refs (t : tree) : list ref := match t with Leaf r => [r] | Node r a ks => r :: opt a ++ flat_map refs ks end.
(** Levels of nodes *)
Fixpoint depth (t : tree) : nat :=
  match t with Leaf _ => O | Node _ _ ks => S (fold_right (fun k m => Nat.max (depth k) m) O ks) end.

Definition ptr (r : ref) : obj := ORef (fst r) (snd r).
(** The value of an entry, directly or by reference *)
Definition value_of (h : heap) (d : list (list Z * obj)) (k : string) (v : obj) : Prop :=
  dict_get (bs k) d = Some v \/ exists r, dict_get (bs k) d = Some (ptr r) /\ h r = Some v.
(** The entry /Parent *)
Definition linked (up : option ref) (d : list (list Z * obj)) : Prop :=
  match up with Some r => dict_get (bs "Parent") d = Some (ptr r) | None => True end.
Definition array_at (h : heap) (a : option ref) (d : list (list Z * obj)) (l : list obj) : Prop :=
  match a with
  | None => dict_get (bs "Kids") d = Some (OArr l)
  | Some r => dict_get (bs "Kids") d = Some (ptr r) /\ h r = Some (OArr l)
  end.
(** The tree is in the document below the object [up]: types, counts, kids and parents are right. Dictionaries are
    ordered maps. *)
Fixpoint holds (h : heap) (up : option ref) (t : tree) : Prop :=
  match t with
  | Leaf r => exists d, h r = Some (ODict d) /\ sorted d /\ value_of h d "Type" (OName (bs "Page")) /\ linked up d
  | Node r a ks =>
    (exists d, h r = Some (ODict d) /\ sorted d /\ value_of h d "Type" (OName (bs "Pages")) /\ linked up d /\
       value_of h d "Count" (ONum (Z.of_nat (length (flat_map leaves ks)))) /\ array_at h a d (map (fun k => ptr (tref k)) ks)) /\
    (fix all l := match l with [] => True | k :: l' => holds h (Some r) k /\ all l' end) ks
  end.
Definition page_tree (h : heap) (root : ref) (t : tree) : Prop :=
  holds h None t /\ NoDup (refs t) /\ tref t = root /\ match t with Leaf _ => False | Node _ _ _ => True end.
(** The document has a page tree of at most [max] levels with these pages *)
Definition doc_pages (max : nat) (h : heap) (root : ref) (l : list ref) : Prop :=
  exists t, page_tree h root t /\ leaves t = l /\ (depth t <= max)%nat.
(** Objects that are pages and not in the list *)
Definition page_object (h : heap) (r : ref) : Prop :=
  exists d, h r = Some (ODict d) /\ sorted d /\ value_of h d "Type" (OName (bs "Page")).
Definition insertable (h : heap) (l : list ref) (ps : list ref) : Prop :=
  ps <> [] /\ NoDup ps /\ Forall (fun p => page_object h p /\ ~ In p l) ps /\ Z.of_nat (length l + length ps) < 2 ^ 31.

(** ** Operations on lists *)
Definition insert_at {A} (i : nat) (x l : list A) : list A := firstn i l ++ x ++ skipn i l.
Definition remove_at {A} (i : nat) (l : list A) : list A := firstn i l ++ skipn (S i) l.

(** ** Histories *)

(** The lists a state may stand for after one operation, with what the operation may assume *)
Inductive step : pages -> list ref -> pages -> list ref -> Prop :=
| step_insert s l i ps s' : 0 <= i -> insertable (pheap s) l ps -> insert_pages s i ps = Ok s' ->
    step s l s' (insert_at (Nat.min (Z.to_nat i) (length l)) ps l)
| step_create s l i r box s' : 0 <= i -> pheap s r = None -> Z.of_nat (length l + 1) < 2 ^ 31 -> create_page_at s i r box = Ok s' ->
    step s l s' (insert_at (Nat.min (Z.to_nat i) (length l)) [r] l)
| step_append s l r box s' : pheap s r = None -> Z.of_nat (length l + 1) < 2 ^ 31 -> create_page s r box = Ok s' ->
    step s l s' (l ++ [r])
| step_remove s l i s' x : 0 <= i -> remove_page s i = (x, s') -> step s l s' (remove_at (Z.to_nat i) l)
| step_get s l i s' x : 0 <= i -> get_page_at s i = (x, s') -> step s l s' l
| step_find s l r s' x : get_page_ref s r = (x, s') -> step s l s' l
(** another part of the program changes an object outside of the tree *)
| step_other s l r o : (forall t, page_tree (pheap s) (proot s) t -> ~ In r (refs t)) ->
    (forall v, pheap s r = Some v -> match v with ONum _ | OName _ => False | _ => True end) ->
    step s l (mk_pages (pmax s) (proot s) (set r o (pheap s)) (pcache s)) l.
Inductive steps : pages -> list ref -> pages -> list ref -> Prop :=
| steps_none s l : steps s l s l
| steps_more s l s' l' s'' l'' : steps s l s' l' -> step s' l' s'' l'' -> steps s l s'' l''.

(** ** Inherited entries (ISO 32000-1, 7.7.3.4): that of the page or else of the nearest ancestor that has one *)
Definition has_entry (h : heap) (r : ref) (k : string) (v : obj) : Prop :=
  exists d, h r = Some (ODict d) /\ ((forall n g, v <> ORef n g) /\ value_of h d k v).
Definition lacks_entry (h : heap) (r : ref) (k : string) : Prop :=
  exists d, h r = Some (ODict d) /\ dict_get (bs k) d = None.
Inductive inherits (h : heap) (k : string) : list ref -> obj -> Prop :=
| inh_here r up v : has_entry h r k v -> inherits h k (r :: up) v
| inh_up r up v : lacks_entry h r k -> inherits h k up v -> inherits h k (r :: up) v.

(** ** Node graphs of any shape *)

(** [q] is one of the kids of [p] *)
Definition kid_of (h : heap) (p q : ref) : Prop :=
  exists d l, h p = Some (ODict d) /\ value_of h d "Kids" (OArr l) /\ In (ptr q) l.
(** A chain of kids from [r] down to [x] *)
Fixpoint kid_chain (h : heap) (r : ref) (ps : list ref) (x : ref) : Prop :=
  match ps with
  | [] => r = x
  | p :: ps' => p = r /\ exists q, kid_of h r q /\ kid_chain h q ps' x
  end.
