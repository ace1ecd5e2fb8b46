(** What a cross-reference table says (ISO 32000-1, 7.5.4) *)
From Verif Require Import Base TokModel ListModel XrefModel.
Local Open Scope Z_scope.

(** Entry [i] of a subsection that starts at [first] describes object [first + i]; a reader sees the announced
    count and the entries one after the other, nothing else *)
Definition lists (secs : list section) (n : Z) (e : xent) : Prop :=
  exists first count es, In (first, count, es) secs /\ first <= n /\ n < first + count /\
                         nth_error (map snd es) (Z.to_nat (n - first)) = Some e.
(** The announced counts are right and the subsections ascend without overlap from [lo] on *)
Fixpoint well_formed (lo : Z) (secs : list section) : Prop :=
  match secs with
  | [] => True
  | (first, count, es) :: t => lo <= first /\ 0 < count /\ count = Z.of_nat (length es) /\ well_formed (first + count) t
  end.

(** What was added: an object in use at an offset, a free number *)
Definition added_used (adds : list (ref * xadd)) (n g off : Z) : Prop := In ((n, g), XInUse (Some off)) adds.
Definition added_free (adds : list (ref * xadd)) (n g : Z) : Prop := In ((n, g), XFreed) adds.
(** [m] is the lowest free number above [n], or 0 if there is none *)
Definition next_link (adds : list (ref * xadd)) (n m : Z) : Prop :=
  ((exists g, added_free adds m g) /\ n < m /\ (forall k g, added_free adds k g -> n < k -> m <= k)) \/
  (m = 0 /\ forall k g, added_free adds k g -> ~ n < k).
(** The entry due for object number [n] *)
Definition due (adds : list (ref * xadd)) (n : Z) (e : xent) : Prop :=
  match e with
  | XUsed off g => added_used adds n g off
  | XFree m g => added_free adds n g /\ next_link adds n m
  end.
(** Each number is added once; 0 is reserved, and numbers must leave room for /Size in a uint32_t *)
Definition addable (adds : list (ref * xadd)) : Prop :=
  NoDup (map (fun x => fst (fst x)) adds) /\ Forall (fun x => 1 <= fst (fst x) < 2 ^ 32 - 1) adds.
Definition something (adds : list (ref * xadd)) : Prop :=
  exists n g, (exists off, added_used adds n g off) \/ added_free adds n g.

(** Following the links of the free entries from [n], [l] being the numbers met *)
Inductive free_chain (secs : list section) : Z -> list Z -> Prop :=
| chain_end n g : lists secs n (XFree 0 g) -> free_chain secs n []
| chain_step n m g l : lists secs n (XFree m g) -> m <> 0 -> free_chain secs m l -> free_chain secs n (m :: l).

(** What a reader knows about object number [n] *)
Definition look (es : rents) (n : Z) : option rent :=
  match nth_error es (Z.to_nat n) with Some (Some e) => Some e | _ => None end.
(** The meaning of a table entry for a reader of a file whose header is at offset [magic] *)
Definition as_read (magic : Z) (e : xent) : rent :=
  match e with XFree n g => RFree n g | XUsed off g => RUsed (off + magic) g end.
(** The fields have room for ten and five digits, and an offset is a file offset (below 2^63) *)
Definition fits (magic : Z) (e : xent) : Prop :=
  match e with
  | XFree n g => 0 <= n < 10 ^ 10 /\ 0 <= g < 10 ^ 5
  | XUsed off g => 0 <= off < 10 ^ 10 /\ 0 <= g < 10 ^ 5 /\ off + magic < 2 ^ 63
  end.
(** Within the limits of the reader: 8388607 object numbers *)
Definition limits (magic : Z) (x : section) : Prop :=
  let '(f, c, l) := x in f + c <= 8388607 /\ Forall (fun e => fits magic (snd e)) l.
(** An object whose number, generation and offset fit *)
Definition fits_add (magic : Z) (x : ref * xadd) : Prop :=
  fst (fst x) < 8388607 /\ 0 <= snd (fst x) < 10 ^ 5 /\
  match snd x with XInUse (Some off) => 0 <= off < 10 ^ 10 /\ off + magic < 2 ^ 63 | _ => True end.
Fixpoint ascends (l : list Z) : Prop :=
  match l with [] => True | x :: t => (forall y, In y t -> x < y) /\ ascends t end.

(** ** Cross-reference streams *)
(** The fields have four and two bytes *)
Definition fits_stream (e : xent) : Prop :=
  match e with XFree n g => 0 <= n < 2 ^ 32 /\ 0 <= g < 2 ^ 16 | XUsed off g => 0 <= off < 2 ^ 32 /\ 0 <= g < 2 ^ 16 end.
Definition fits_add_stream (x : ref * xadd) : Prop :=
  fst (fst x) < 8388607 /\ 0 <= snd (fst x) < 2 ^ 16 /\
  match snd x with XInUse (Some off) => 0 <= off < 2 ^ 32 | _ => True end.
(** What is true once the stream object [me] has been written at [off] *)
Definition placed (me : ref) (off : Z) (adds : list (ref * xadd)) : list (ref * xadd) :=
  map (fun x => if ref_eqb (fst x) me then (me, XInUse (Some off)) else x) adds.
(** first + count of each pair of /Index is an int64_t *)
Fixpoint sums_ok (idx : list Z) : Prop :=
  match idx with a :: b :: t => int64_ok (a + b) = true /\ sums_ok t | _ => True end.

(** An entry as text: ten digits, a space, five digits, a space, n or f, two bytes of line end (ISO 32000-1, 7.5.4) *)
Definition entry_shape (e : xent) (t : list Z) : Prop :=
  exists a b, t = a ++ [32] ++ b ++ [32; match e with XFree _ _ => 102 | XUsed _ _ => 110 end; 32; 10] /\
    length a = 10%nat /\ length b = 5%nat /\ Forall (fun c => 48 <= c <= 57) (a ++ b) /\
    dec_val a = match e with XFree n _ => n | XUsed off _ => off end /\
    dec_val b = match e with XFree _ g => g | XUsed _ g => g end.
