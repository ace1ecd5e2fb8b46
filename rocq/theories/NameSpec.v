(** What a name tree is and what its operations mean *)
From Coq Require Import String Sorting.Sorted.
From Verif Require Import Base TokModel DictProofs ListModel PageModel PageSpec.
Local Open Scope Z_scope.

(** ** Name trees as in ISO 32000-1, 7.9.6 *)

(** The text of a key with the way it is written (hex or not) *)
Definition str : Type := bool * list Z.
Definition entry : Type := str * obj.
Definition sobj (k : str) : obj := OStr (fst k) (snd k).
(** A leaf with its pairs, or a node with its kids *)
Inductive ntree := NLeaf (r : ref) (l : list entry) | NNode (r : ref) (ks : list ntree).
Definition nref (t : ntree) : ref := match t with NLeaf r _ => r | NNode r _ => r end.
Fixpoint entries (t : ntree) : list entry := match t with NLeaf _ l => l | NNode _ ks => flat_map entries ks end.
Fixpoint nrefs (t : ntree) : list ref := match t with NLeaf r _ => [r] | NNode r ks => r :: flat_map nrefs ks end.
Fixpoint levels (t : ntree) : nat :=
  match t with NLeaf _ _ => 1%nat | NNode _ ks => S (fold_right (fun k m => Nat.max (levels k) m) O ks) end.

(** /Names: keys and values in turn *)
Definition pairs (l : list entry) : list obj := flat_map (fun e => [sobj (fst e); snd e]) l.
(** /Limits: the first and the last key; not in the root *)
Definition limits (top : bool) (l : list entry) (d : list (list Z * obj)) : Prop :=
  if top then dict_get (bs "Limits") d = None
  else exists x y b c, hd_error l = Some x /\ last l x = y /\
    dict_get (bs "Limits") d = Some (OArr [OStr b (snd (fst x)); OStr c (snd (fst y))]).
(** /Names or /Kids *)
Definition shape (t : ntree) (d : list (list Z * obj)) : Prop :=
  match t with
  | NLeaf _ l => dict_get (bs "Names") d = Some (OArr (pairs l)) /\ dict_get (bs "Kids") d = None
  | NNode _ ks => ks <> [] /\ dict_get (bs "Kids") d = Some (OArr (map (fun k => ptr (nref k)) ks))
  end.
(** The tree is in the document; arrays are direct objects *)
Fixpoint stored (h : heap) (top : bool) (t : ntree) : Prop :=
  (exists d, h (nref t) = Some (ODict d) /\ sorted d /\ shape t d /\ limits top (entries t) d) /\
  match t with
  | NLeaf _ _ => True
  | NNode _ ks => (fix all l := match l with [] => True | k :: l' => stored h false k /\ all l' end) ks
  end.
Definition before (x y : entry) : Prop := bytes_lt (snd (fst x)) (snd (fst y)) = true.
Definition name_tree (h : heap) (root : ref) (t : ntree) : Prop :=
  stored h true t /\ NoDup (nrefs t) /\ nref t = root /\ StronglySorted before (entries t).
(** A root without anything *)
Definition blank (h : heap) (root : ref) : Prop :=
  exists d, h root = Some (ODict d) /\ sorted d /\ dict_get (bs "Kids") d = None /\ dict_get (bs "Names") d = None /\ dict_get (bs "Limits") d = None.
(** The document has a name tree of these objects with these entries *)
Definition tree_at (h : heap) (root : ref) (on : list ref) (l : list entry) (n : nat) : Prop :=
  (blank h root /\ on = [root] /\ l = [] /\ n = 0%nat) \/ exists t, name_tree h root t /\ on = nrefs t /\ entries t = l /\ levels t = n.

(** ** Maps *)
Fixpoint lookup (k : list Z) (l : list entry) : option obj :=
  match l with [] => None | (q, v) :: l' => if beq (snd q) k then Some v else lookup k l' end.
(** The last value given to a key *)
Definition last_value (k : list Z) (hist : list entry) : option obj := lookup k (rev hist).
(** A value is returned as it is; a reference is followed (twice, see [GetValue]) *)
Definition followed (h : heap) (v : option obj) : option obj :=
  match v with
  | Some (ORef n g) => match h (n, g) with Some (ORef n' g') => h (n', g') | x => x end
  | x => x
  end.

(** ** Nodes of a tree and what is below them *)
Inductive node_of : ntree -> ntree -> Prop :=
| is_kid r ks u : In u ks -> node_of u (NNode r ks)
| is_below r ks k u : In k ks -> node_of u k -> node_of u (NNode r ks).
(** /Limits of a node that is not the root *)
Definition enclosed (h : heap) (u : ntree) : Prop :=
  exists d b lo c hi, h (nref u) = Some (ODict d) /\ dict_get (bs "Limits") d = Some (OArr [OStr b lo; OStr c hi]) /\
    forall e, In e (entries u) -> bytes_lt (snd (fst e)) lo = false /\ bytes_lt hi (snd (fst e)) = false.
