(** RC4 with a table as a function, and what streams do *)
From Verif Require Import Base Rc4Model.
Local Open Scope Z_scope.

Definition swap (T : Z -> Z) (i j : Z) : Z -> Z := fun k => if k =? i then T j else if k =? j then T i else T k.
(** The key schedule after [n] rounds *)
Fixpoint sched (key : list Z) (n : nat) : (Z -> Z) * Z :=
  match n with
  | O => (fun i => i, 0)
  | S n' =>
    let (T, j) := sched key n' in
    let j' := (j + T (Z.of_nat n') + nth (n' mod length key) key 0) mod 256 in
    (swap T (Z.of_nat n') j', j')
  end.
(** The state after [n] bytes: table, index, index *)
Fixpoint gen (key : list Z) (n : nat) : (Z -> Z) * Z * Z :=
  match n with
  | O => (fst (sched key 256), 0, 0)
  | S n' =>
    let '(T, a, b) := gen key n' in
    let a' := (a + 1) mod 256 in let b' := (b + T a') mod 256 in (swap T a' b', a', b')
  end.
(** Byte [n] of the key stream *)
Definition key_byte (key : list Z) (n : nat) : Z := let '(T, a, b) := gen key (S n) in T ((T a + T b) mod 256).
(** Data combined with the key stream from byte [n] on *)
Fixpoint rc4_from (key : list Z) (n : nat) (data : list Z) : list Z :=
  match data with [] => [] | c :: r => Z.lxor c (key_byte key n) :: rc4_from key (S n) r end.

(** ** Histories of streams *)
(** All streams have keys of [L] bytes, none of them zero in all bytes *)
Definition keys_ok (L : nat) (l : list op) : Prop := Forall (fun o => match o with OOpen key _ _ => length key = L /\ key <> repeat 0 L | _ => True end) l.
(** The key of the stream that is opened after [n] others *)
Fixpoint opened (n : nat) (l : list op) : option (list Z) :=
  match l with
  | [] => None
  | OOpen key _ _ :: l' => match n with O => Some key | S n' => opened n' l' end
  | _ :: l' => opened n l'
  end.
Definition opens (l : list op) : nat := length (filter (fun o => match o with OOpen _ _ _ => true | _ => false end) l).
(** What is put into stream [k] by the steps: the blocks written and the bytes taken from the device, at most [len] *)
Fixpoint fed (k : nat) (dev : list Z) (len : Z) (l : list op) : list Z :=
  match l with
  | [] => []
  | OWrite k' block :: l' => if Nat.eqb k' k then block ++ fed k dev len l' else fed k dev len l'
  | ORead k' n :: l' =>
    if Nat.eqb k' k then let inp := firstn (Z.to_nat (Z.min n len)) dev in inp ++ fed k (skipn (length inp) dev) (len - Z.of_nat (length inp)) l' else fed k dev len l'
  | _ :: l' => fed k dev len l'
  end.
(** The same for the stream that is opened after [n] others *)
Fixpoint inputs (k n : nat) (l : list op) : list Z :=
  match l with
  | [] => []
  | OOpen _ dev len :: l' => match n with O => fed k dev len l' | S n' => inputs k n' l' end
  | _ :: l' => inputs k n l'
  end.
(** What comes out of stream [k] *)
Definition out_of (k : nat) (outs : list (nat * list Z)) : list Z := concat (map snd (filter (fun x => Nat.eqb (fst x) k) outs)).
Definition only_reads (k : nat) (l : list op) : Prop := Forall (fun o => match o with OWrite k' _ => k' <> k | _ => True end) l.
(** Number of bytes asked for *)
Fixpoint asked (k : nat) (l : list op) : nat :=
  match l with [] => O | ORead k' n :: l' => if Nat.eqb k' k then (Z.to_nat n + asked k l')%nat else asked k l' | _ :: l' => asked k l' end.
