(** Vocabulary of the properties of containers and ownership. *)
From Coq Require Import String.
From Verif Require Import Base TokModel OwnModel.
Local Open Scope Z_scope.

(** ** Dictionaries: a history of additions and removals, the newest first *)
Inductive dop (A : Type) := DPut (k : list Z) (v : A) | DDel (k : list Z).
Arguments DPut {A}. Arguments DDel {A}.
(** the value last added for a key and not removed since *)
Inductive current {A} (k : list Z) : list (dop A) -> option A -> Prop :=
| cur_none : current k [] None
| cur_put v h : current k (DPut k v :: h) (Some v)
| cur_del h : current k (DDel k :: h) None
| cur_other_put k' v h x : k' <> k -> current k h x -> current k (DPut k' v :: h) x
| cur_other_del k' h x : k' <> k -> current k h x -> current k (DDel k' :: h) x.
(** the dictionary after the history *)
Fixpoint played {A} (h : list (dop A)) : list (list Z * A) :=
  match h with
  | [] => []
  | DPut k v :: t => add_key k v (played t)
  | DDel k :: t => snd (remove_key k (played t))
  end.

(** ** Inherited attributes *)

(** the first entry with the key, references replaced by their target; dangling references count as absent *)
Definition entry (look : Z * Z -> option obj) (d : list (list Z * obj)) (k : list Z) (v : obj) : Prop :=
  exists d1 x d2, d = d1 ++ (k, x) :: d2 /\ ~ In k (map fst d1) /\
    match x with ORef n g => look (n, g) = Some v | _ => v = x end.
Inductive inherits (look : Z * Z -> option obj) (k : list Z) : list (list Z * obj) -> option obj -> Prop :=
| inh_here d v : entry look d k v -> inherits look k d (Some v)
| inh_up d p r : (forall v, ~ entry look d k v) -> entry look d (bs "Parent") (ODict p) -> inherits look k p r -> inherits look k d r
| inh_none d : (forall v, ~ entry look d k v) -> (forall p, ~ entry look d (bs "Parent") (ODict p)) -> inherits look k d None.

(** ** Values: equal up to the spelling of strings and reals *)
Inductive same_value : obj -> obj -> Prop :=
| sv_null : same_value ONull ONull
| sv_bool b : same_value (OBool b) (OBool b)
| sv_num n : same_value (ONum n) (ONum n)
| sv_real m k n l : m * 10 ^ Z.of_nat l = n * 10 ^ Z.of_nat k -> same_value (OReal m k) (OReal n l)
| sv_name n : same_value (OName n) (OName n)
| sv_str h h' s : same_value (OStr h s) (OStr h' s)
| sv_ref n g : same_value (ORef n g) (ORef n g)
| sv_arr x y : Forall2 same_value x y -> same_value (OArr x) (OArr y)
| sv_dict x y : Forall2 (fun a b => fst a = fst b /\ same_value (snd a) (snd b)) x y -> same_value (ODict x) (ODict y).
Inductive no_null : obj -> Prop :=
| nn_arr l : Forall no_null l -> no_null (OArr l)
| nn_dict d : Forall (fun kv => no_null (snd kv)) d -> no_null (ODict d)
| nn_other o : match o with ONull | OArr _ | ODict _ => False | _ => True end -> no_null o.

(** ** Ownership: every link from a value inside the object up to the object is there *)
Inductive linked (d : bool) : node -> Prop :=
| lk_leaf o : linked d (Leaf true d o)
| lk_arr c l : Forall (linked d) l -> linked d (Arr true d true c l)
| lk_dic m : Forall (fun kv => linked d (snd kv)) m -> linked d (Dic true d true m).
Definition rooted (n : node) : Prop := linked (doc n) (flags true (doc n) n).
(** Operations that do not move array elements to other storage *)
Definition in_place (o : op) (n : node) : Prop :=
  match o, n with
  | OpAdd _, Arr _ _ _ c l => (length l < c)%nat
  | OpInsert i _, Arr _ _ _ c l => i = length l /\ (length l < c)%nat
  | OpReserve k, Arr _ _ _ c _ => (k <= c)%nat
  | OpResize k, _ => False
  | _, _ => True
  end.
(** Histories of such operations on an object with dirty flag; [changed] tells whether the value has been
    different from the last one written at some time since *)
Inductive history : node * bool -> bool -> Prop :=
| hi_new n b : rooted n -> history (n, b) false
| hi_reset s c : history s c -> history (fst s, false) false
| hi_op s c p o x s' : history s c -> get_at p (fst s) = Some x -> in_place o x -> mstep (Some (p, o)) s = Some s' ->
    forall c', (content (fst s') = content (fst s) -> c' = c) -> (content (fst s') <> content (fst s) -> c' = true) -> history s' c'.
(** several steps, the first first *)
Fixpoint runs (l : list (option (list stepp * op))) (s : node * bool) : option (node * bool) :=
  match l with
  | [] => Some s
  | a :: t => match mstep a s with Some s' => runs t s' | None => None end
  end.
(** two places of which none is inside the other *)
Definition apart (p q : list stepp) : Prop := exists c x y p' q', p = c ++ x :: p' /\ q = c ++ y :: q' /\ x <> y.
