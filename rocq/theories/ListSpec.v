(** Vocabulary of the properties of the object list. *)
From Coq Require Import String.
From Verif Require Import Base TokModel ListModel.
Local Open Scope Z_scope.

(** [r] occurs in the value [o] *)
Inductive mentions : obj -> ref -> Prop :=
| mentions_ref n g : mentions (ORef n g) (n, g)
| mentions_arr l x r : In x l -> mentions x r -> mentions (OArr l) r
| mentions_dict d k x r : In (k, x) d -> mentions x r -> mentions (ODict d) r.

(** Objects reachable from the value [tr] in the graph [look] *)
Inductive reach (look : ref -> option iobj) (tr : obj) : ref -> Prop :=
| reach_root r c : mentions tr r -> look r = Some c -> reach look tr r
| reach_step r c r' c' : reach look tr r -> look r = Some c -> mentions (fst c) r' -> look r' = Some c' -> reach look tr r'.

(** The elements of a std::set are in strictly ascending order. *)
Definition ref_below (a b : ref) : Prop := fst a < fst b \/ (fst a = fst b /\ snd a < snd b).
Fixpoint ascending (l : list ref) : Prop :=
  match l with
  | [] => True
  | a :: t => match t with [] => True | b :: _ => ref_below a b end /\ ascending t
  end.
Definition well_formed (s : olist) : Prop := ascending (map fst (live s)) /\ ascending (frees s).

(** A reference as found in a file *)
Definition ref_ok (r : ref) : Prop := 1 <= fst r < 2 ^ 32 - 1 /\ 0 <= snd r <= 65535.
(** Room for a new object: a free number may be reused, or the counter fits. *)
Definition room (s : olist) : Prop := count s <= 65534 \/ (reuse s = true /\ frees s <> []).

(** Histories: [h] lists every reference an object has had. Loading follows the rule for files: a number is
    listed once, either in use or free. *)
Inductive hist : list ref -> olist -> Prop :=
| h_empty : hist [] empty_list
| h_create h s o r s' : hist h s -> room s -> create o s = Ok (r, s') -> hist (r :: h) s'
| h_remove h s r mark x s' : hist h s -> remove r mark s = Ok (x, s') -> hist h s'
| h_load h s r o : hist h s -> ref_ok r -> (forall r', In r' h \/ In r' (frees s) -> fst r' <> fst r) -> hist (r :: h) (push r o s)
| h_free h s r : hist h s -> ref_ok r -> (forall r', In r' h \/ In r' (frees s) -> fst r' <> fst r) -> hist h (safe_add_free r s)
| h_reuse h s b : hist h s -> hist h (set_reuse b s)
| h_stream h s n : hist h s -> hist h (add_ostrm n s)
| h_collect h s tr s' : hist h s -> collect tr s = Some s' -> hist h s'
| h_replace h s r o old s' : hist h s -> get_object r s <> None -> replace r o true s = (Ok old, s') -> hist h s'.

(** [o'] is [o] with [d] added to every object number *)
Inductive shifted (d : Z) : obj -> obj -> Prop :=
| sh_ref n g : shifted d (ORef n g) (ORef (n + d) g)
| sh_arr l l' : Forall2 (shifted d) l l' -> shifted d (OArr l) (OArr l')
| sh_dict m m' : Forall2 (fun a b => fst a = fst b /\ shifted d (snd a) (snd b)) m m' -> shifted d (ODict m) (ODict m')
| sh_other o : match o with ORef _ _ | OArr _ | ODict _ => False | _ => True end -> shifted d o o.

(** All object numbers in a value *)
Inductive numbers_below (b : Z) : obj -> Prop :=
| nb o : (forall n g, mentions o (n, g) -> 0 <= n < b) -> numbers_below b o.
