(** Specification vocabulary for the object round trip: which objects are meant, and how they may be followed. *)
From Coq Require Import String.
From Verif Require Import Base TokModel WriteModel DictProofs TokProofs RealProofs.
Local Open Scope Z_scope.

(** A name the writer can express and the reader's token buffer can hold. *)
Definition name_ok (buf : nat) (n : list Z) : Prop :=
  bytes_ok n /\ ~ In 0 n /\ forall t, escape_name n = Ok t -> (length t <= buf)%nat.

(** Objects inside the claim: numbers in range, bytes are bytes, dictionary keys in map order.
    References need a reader that reads references. *)
Fixpoint wf_obj (P : rparams) (o : obj) : Prop :=
  match o with
  | ONull | OBool _ => True
  | ONum n => int64_ok n = true
  | OReal m k => canon_real m k /\ (length (real_text m k) <= rbuf P)%nat
  | OName n => name_ok (rbuf P) n
  | OStr _ s => bytes_ok s
  | ORef n g => 0 <= n < 2 ^ 32 /\ 0 <= g < 2 ^ 16 /\ rrefs P = true
  | OArr l => (fix all l := match l with [] => True | x :: r => wf_obj P x /\ all r end) l
  | ODict d => sorted d /\ (fix all d := match d with [] => True | (k, v) :: r => (name_ok (rbuf P) k /\ wf_obj P v) /\ all r end) d
  end.

(** Levels of the recursion guard used while reading the inside of an object: one per array level,
    one for the keys of a dictionary; a dictionary as a dictionary value takes none. *)
Fixpoint inner (o : obj) : nat :=
  match o with
  | OArr l => (fix go l := match l with [] => O | x :: r => Nat.max (S (inner x)) (go r) end) l
  | ODict d => (fix go d := match d with [] => O | (_, v) :: r => Nat.max (Nat.max 1 (inner v)) (go r) end) d
  | _ => O
  end.

Definition flags_ok (fl : wflags) : Prop := wclean fl = true \/ wnoinline fl = false.

(** Objects whose text must be followed by a separator. *)
Definition needs_stop (o : obj) : Prop := match o with OStr _ _ | OArr _ | ODict _ => False | _ => True end.
(** Objects after which the reader looks ahead for a reference. *)
Definition needs_safe (o : obj) : Prop := match o with ONum _ => True | _ => False end.

(** Reading one object from a text, starting outside any nesting. The fuel is a function of the
    text alone; [C07_parsing_terminates] shows it always suffices and that more changes nothing. *)
Definition parse (P : rparams) (inp : list Z) : res (option obj * tst) :=
  read_next P (3 * length inp + 3) 0 (mk_tst [] inp).

(** What may follow an object's text: a separator if it ends with a regular character, and
    nothing that would turn a number into a reference. *)
Definition may_follow (P : rparams) (o : obj) (k : list Z) : Prop :=
  (needs_stop o -> stops k) /\ (needs_safe o -> rrefs P = true -> num_safe (rbuf P) k).

(** Nesting of arrays and dictionaries *)
Fixpoint nesting (o : obj) : nat :=
  match o with
  | OArr l => S ((fix go l := match l with [] => O | x :: r => Nat.max (nesting x) (go r) end) l)
  | ODict d => S ((fix go d := match d with [] => O | (_, v) :: r => Nat.max (nesting v) (go r) end) d)
  | _ => O
  end.

(** Nesting of arrays alone *)
Fixpoint array_nesting (o : obj) : nat :=
  match o with
  | OArr l => S ((fix go l := match l with [] => O | x :: r => Nat.max (array_nesting x) (go r) end) l)
  | ODict d => (fix go d := match d with [] => O | (_, v) :: r => Nat.max (array_nesting v) (go r) end) d
  | _ => O
  end.

(** ISO 32000-1 7.3.4.3: hexadecimal text as bytes; a missing last digit is 0 *)
Fixpoint hex_pairs (ds : list Z) : list Z :=
  match ds with
  | h :: l :: r => 16 * h + l :: hex_pairs r
  | [h] => [16 * h]
  | [] => []
  end.
Definition hex_meaning (w : list Z) : list Z :=
  hex_pairs (flat_map (fun c => match hex_val c with Some v => [v] | None => [] end) w).
