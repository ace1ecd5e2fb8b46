(** Ordered forests as lists of children, and linked lists *)
From Verif Require Import Base OutlineModel.
Local Open Scope Z_scope.

(** The children of each item in order; of [None]: the items without parent *)
Definition family := option Z -> list Z.
(** Each item has one place; parents are older than their children *)
Definition forest (K : family) (n : Z) : Prop :=
  (forall p, NoDup (K p)) /\ (forall p q i, In i (K p) -> In i (K q) -> p = q) /\
  (forall p i, In i (K (Some p)) -> p < i /\ exists q, In p (K q)) /\ (forall p i, In i (K p) -> i < n).
(** [j] is [i] or below it *)
Inductive under (K : family) (i : Z) : Z -> Prop :=
| u_self : under K i i
| u_kid p j : under K i p -> In j (K (Some p)) -> under K i j.
Definition gone (K : family) (i : Z) (p : option Z) : Prop := exists j, p = Some j /\ under K i j.

(** ** What the calls do to the forest *)
Inductive step (K : family) (n : Z) : call -> family -> Z -> Prop :=
| s_child i q K' : In i (K q) ->
    K' (Some i) = K (Some i) ++ [n] -> (forall p, p <> Some i -> K' p = K p) -> step K n (CChild i) K' (n + 1)
| s_next i q a b K' : K q = a ++ i :: b ->
    K' q = a ++ i :: n :: b -> (forall p, p <> q -> K' p = K p) -> step K n (CNext i) K' (n + 1)
| s_erase i q K' : In i (K q) ->
    (forall p, gone K i p -> K' p = []) -> (forall p, ~ gone K i p -> K' p = remove Z.eq_dec i (K p)) -> step K n (CErase i) K' n.
Inductive steps (K : family) (n : Z) : list call -> family -> Z -> Prop :=
| ss_nil : steps K n [] K n
| ss_cons c l K1 n1 K2 n2 : step K n c K1 n1 -> steps K1 n1 l K2 n2 -> steps K n (c :: l) K2 n2.

(** ** Doubly linked lists *)
(** Following [f] from [x] gives exactly these items *)
Fixpoint chain (f : Z -> option Z) (x : option Z) (l : list Z) : Prop :=
  match l with [] => x = None | i :: l' => x = Some i /\ chain f (f i) l' end.
Definition of (d : Z -> option links) (f : links -> option Z) (i : Z) : option Z := match d i with Some l => f l | None => None end.
(** In the table of links [d] the children of [i] are those of the family, in both directions, and know their parent *)
Definition linked (d : Z -> option links) (K : family) (i : Z) : Prop :=
  chain (of d next) (of d first i) (K (Some i)) /\ chain (of d prev) (of d last_ i) (rev (K (Some i))) /\
  forall j, In j (K (Some i)) -> of d up j = Some i.
(** Constructors nested when this list of siblings is loaded *)
Inductive fits (K : family) : nat -> list Z -> Prop :=
| f_nil g : fits K g []
| f_cons g i l : fits K g (K (Some i)) -> fits K g l -> fits K (S g) (i :: l).
(** ** States *)
(** The links of the item [i] between its siblings [a] and [b] below [p] *)
Definition last_opt (l : list Z) : option Z := hd_error (rev l).
Definition place (K : family) (p : option Z) (a : list Z) (i : Z) (b : list Z) : links :=
  mk_links p (last_opt a) (hd_error b) (hd_error (K (Some i))) (last_opt (K (Some i))).
Definition layer (d : Z -> option links) (K : family) : Prop := forall p a i b, K p = a ++ i :: b -> d i = Some (place K p a i b).
(** The items of the forest and only they are in memory, with their links in memory and in the document *)
Definition matches (s : ost) (K : family) : Prop :=
  forest K (top s) /\ layer (mems s) K /\ layer (dics s) K /\ forall i, mems s i <> None -> exists p, In i (K p).
(** A document with the root of an outline *)
Definition no_links : links := mk_links None None None None None.
Definition start : ost := mk_ost (upd (fun _ => None) 0 (Some no_links)) (upd (fun _ => None) 0 (Some no_links)) 1.
Definition only_root : family := fun p => match p with None => [0] | _ => [] end.
