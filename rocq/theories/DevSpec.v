(** What a device in memory is: a memory from places to bytes, a length and a position. Independent of DevModel.v except for the names of the
    operations and results. *)
From Verif Require Import Base DevModel.
Local Open Scope Z_scope.

Record mem := mk_mem { m_at : Z -> Z; m_len : Z; m_pos : Z }.
(** The memory after writing: the last write wins; a hole cannot arise as the position is at most the length *)
Definition after_write (m : mem) (data : list Z) : mem :=
  let n := Z.of_nat (length data) in
  mk_mem (fun i => if (m_pos m <=? i) && (i <? m_pos m + n) then nth (Z.to_nat (i - m_pos m)) data 0 else m_at m i)
         (Z.max (m_len m) (m_pos m + n)) (m_pos m + n).
Definition at_pos (m : mem) (p : Z) : mem := mk_mem (m_at m) (m_len m) p.
(** [l] is what stands at places p, p+1, ... *)
Definition stands (m : mem) (p : Z) (l : list Z) : Prop := forall k, (k < length l)%nat -> nth k l 0 = m_at m (p + Z.of_nat k).
Definition base (m : mem) (d : dir) : Z := match d with Begin => 0 | Current => m_pos m | End_ => m_len m end.
(** One operation: the kind of the device ([grows]), its access, the memory before and after, and the result *)
Inductive does (grows can_read can_write : bool) (m : mem) : op -> mem -> res out -> Prop :=
| D_nothing : does grows can_read can_write m (Write []) m (Ok Done)
| D_write data : data <> [] -> can_write = true -> grows = true \/ m_pos m + Z.of_nat (length data) <= m_len m ->
    does grows can_read can_write m (Write data) (after_write m data) (Ok Done)
| D_full data : data <> [] -> can_write = true -> grows = false -> m_len m < m_pos m + Z.of_nat (length data) ->
    does grows can_read can_write m (Write data) m (Err EValueOutOfRange)
| D_no_write data : data <> [] -> can_write = false -> does grows can_read can_write m (Write data) m (Err EInternalLogic)
| D_read n l eof : can_read = true -> Z.of_nat (length l) = Z.min n (m_len m - m_pos m) -> stands m (m_pos m) l ->
    (eof = true <-> m_len m <= m_pos m + n) -> does grows can_read can_write m (Read n) (at_pos m (m_pos m + Z.of_nat (length l))) (Ok (Bytes l eof))
| D_read_all n l eof : can_read = true -> Z.of_nat (length l) = n -> m_pos m + n <= m_len m -> stands m (m_pos m) l -> (eof = true <-> m_len m = m_pos m + n) ->
    does grows can_read can_write m (ReadAll n) (at_pos m (m_pos m + n)) (Ok (Bytes l eof))
| D_short n : can_read = true -> m_len m < m_pos m + n -> does grows can_read can_write m (ReadAll n) (at_pos m (m_len m)) (Err EUnexpectedEOF)
| D_char : can_read = true -> m_pos m < m_len m -> does grows can_read can_write m ReadChar (at_pos m (m_pos m + 1)) (Ok (Char (Some (m_at m (m_pos m)))))
| D_char_end : can_read = true -> m_pos m = m_len m -> does grows can_read can_write m ReadChar m (Ok (Char None))
| D_peek : can_read = true -> m_pos m < m_len m -> does grows can_read can_write m Peek m (Ok (Char (Some (m_at m (m_pos m)))))
| D_peek_end : can_read = true -> m_pos m = m_len m -> does grows can_read can_write m Peek m (Ok (Char None))
| D_no_read o : can_read = false -> match o with Read _ | ReadAll _ | ReadChar | Peek => True | _ => False end ->
    does grows can_read can_write m o m (Err EInternalLogic)
| D_seek off d : 0 <= base m d + off <= m_len m -> does grows can_read can_write m (Seek off d) (at_pos m (base m d + off)) (Ok Done)
| D_seek_out off d e : ~ 0 <= base m d + off <= m_len m ->
    (if match d with Begin => off <? 0 | Current => false | End_ => 0 <? off end then e = EInvalidDeviceOperation else e = EValueOutOfRange) ->
    does grows can_read can_write m (Seek off d) m (Err e).
Inductive history (grows can_read can_write : bool) : mem -> list op -> mem -> list (res out) -> Prop :=
| H_none m : history grows can_read can_write m [] m []
| H_op m o m1 r ops m2 rs : does grows can_read can_write m o m1 r -> history grows can_read can_write m1 ops m2 rs ->
    history grows can_read can_write m (o :: ops) m2 (r :: rs).
(** The operations that can be asked for: sizes and offsets of the types, without the least offset *)
Definition op_ok (o : op) : Prop :=
  match o with Write _ | ReadChar | Peek => True | Read n | ReadAll n => 0 <= n < 18446744073709551616
  | Seek off _ => -9223372036854775808 < off < 9223372036854775808 end.
Definition written (o : op) : Z := match o with Write d => Z.of_nat (length d) | _ => 0 end.
Definition written_all (ops : list op) : Z := fold_right (fun o n => written o + n) 0 ops.
(** The device shows the memory *)
Definition shows (d : dev) (m : mem) : Prop :=
  m_len m = Z.of_nat (length (d_buf d)) /\ m_pos m = d_pos d /\ 0 <= d_pos d <= m_len m /\ forall i, 0 <= i < m_len m -> nth (Z.to_nat i) (d_buf d) 0 = m_at m i.
(** The memory with the bytes [buf] *)
Definition mem_of (buf : list Z) (p : Z) : mem := mk_mem (fun i => nth (Z.to_nat i) buf 0) (Z.of_nat (length buf)) p.
