(** Theorems on devices in memory and the identifiers of files. *)
From Coq Require Import Lia String.
From Verif Require Import Base TokModel Md5 DevModel DevSpec DevProofs.
Local Open Scope Z_scope.

(** ** C53 *)
(** Any sequence of operations on a device over any bytes does what a memory with a position does: the results and the bytes are those *)
Theorem C53_history grows can_read can_write buf p ops :
  0 <= p <= Z.of_nat (length buf) -> Forall op_ok ops -> Z.of_nat (length buf) + written_all ops < 9223372036854775808 ->
  exists m, history grows can_read can_write (mem_of buf p) ops m (snd (run (mk_dev grows can_read can_write buf p) ops)) /\ shows (fst (run (mk_dev grows can_read can_write buf p) ops)) m.
Proof. intros P F B. exact (run_ok ops (mk_dev grows can_read can_write buf p) (mem_of buf p) (shows_of _ _ _ _ _ P) F B). Qed.
Print Assumptions C53_history.
(** No operation touches memory outside of the bytes, and none runs on without end *)
Theorem C53_defined grows can_read can_write buf p ops r :
  0 <= p <= Z.of_nat (length buf) -> Forall op_ok ops -> Z.of_nat (length buf) + written_all ops < 9223372036854775808 ->
  In r (snd (run (mk_dev grows can_read can_write buf p) ops)) -> r <> UB /\ r <> Fuel.
Proof.
  intros P F B. destruct (C53_history grows can_read can_write buf p ops P F B) as (m & H & _). revert H. generalize (snd (run (mk_dev grows can_read can_write buf p) ops)). intros rs H.
  induction H as [|m1 o m2 r1 ops1 m3 rs1 D H IH]; [intros []|]. intros [<-|I].
  - inversion D; subst; try (split; discriminate).
  - apply IH; auto; [inversion F; assumption|]. change (written_all (o :: ops1)) with (written o + written_all ops1) in B. destruct o; cbn [written] in B; lia.
Qed.
Print Assumptions C53_defined.
(** The memory and the results are determined by what was there: two runs of the memory agree *)
Theorem C53_determined g r w m o m1 x1 m2 x2 : 0 <= m_pos m <= m_len m -> does g r w m o m1 x1 -> does g r w m o m2 x2 ->
  x1 = x2 /\ m_len m1 = m_len m2 /\ m_pos m1 = m_pos m2 /\ forall i, m_at m1 i = m_at m2 i.
Proof.
  assert (ST : forall l1 l2, length l1 = length l2 -> stands m (m_pos m) l1 -> stands m (m_pos m) l2 -> l1 = l2).
  { intros l1 l2 L S1 S2. apply (nth_ext _ _ 0 0); [exact L|]. intros k K. rewrite S1, S2; lia || reflexivity. }
  assert (BE : forall (a b : bool) (P : Prop), (a = true <-> P) -> (b = true <-> P) -> a = b) by (intros [] [] P A B; tauto || (destruct A, B; intuition congruence)).
  intros P D1 D2. destruct D1; inversion D2; subst; try congruence; try lia; try contradiction; try (repeat split; reflexivity).
  - assert (l0 = l) as -> by (apply ST; auto; lia). assert (eof0 = eof) as -> by (eapply BE; eassumption). repeat split; reflexivity.
  - assert (l0 = l) as -> by (apply ST; auto; lia). assert (eof0 = eof) as -> by (eapply BE; eassumption). repeat split; reflexivity.
  - destruct (match d with Begin => off <? 0 | Current => false | End_ => 0 <? off end); subst; repeat split; reflexivity.
Qed.
Print Assumptions C53_determined.
(** What is written is read again *)
Theorem C53_write_read d p data : d_read d = true -> d_write d = true -> data <> [] -> 0 <= p <= d_len d -> d_grows d = true \/ p + Z.of_nat (length data) <= d_len d ->
  0 <= d_pos d <= d_len d -> d_len d + Z.of_nat (length data) < 9223372036854775808 ->
  exists eof, snd (run d [Seek p Begin; Write data; Seek (- Z.of_nat (length data)) Current; ReadAll (Z.of_nat (length data))]) = [Ok Done; Ok Done; Ok Done; Ok (Bytes data eof)].
Proof.
  intros R W N P G B L. destruct d as [g r w buf q]. unfold d_len in *. cbn [d_grows d_read d_write d_buf d_pos] in *. subst.
  set (ops := [Seek p Begin; Write data; Seek (- Z.of_nat (length data)) Current; ReadAll (Z.of_nat (length data))]).
  destruct (C53_history g true true buf q ops) as (m & H & _); [exact B|repeat constructor; cbn; lia|unfold ops, written_all; cbn; lia|].
  revert H. generalize (snd (run (mk_dev g true true buf q) ops)). unfold ops. intros rs H.
  inversion H as [|? ? ? ? ? ? ? D1 H1]; subst. inversion H1 as [|? ? ? ? ? ? ? D2 H2]; subst. inversion H2 as [|? ? ? ? ? ? ? D3 H3]; subst. inversion H3 as [|? ? ? ? ? ? ? D4 H4]; subst. inversion H4; subst.
  inversion D1; subst; try contradiction; try (exfalso; cbn [base m_pos m_len after_write at_pos mem_of] in *; lia).
  inversion D2; subst; try contradiction; try congruence; try (exfalso; cbn [base m_pos m_len after_write at_pos mem_of] in *; destruct G; [congruence|lia]).
  inversion D3; subst; try contradiction; try (exfalso; cbn [base m_pos m_len after_write at_pos mem_of] in *; lia).
  inversion D4; subst; try discriminate; try (exfalso; cbn [base m_pos m_len after_write at_pos mem_of] in *; lia).
  exists eof. do 4 f_equal. f_equal. f_equal. apply (nth_ext _ _ 0 0); [lia|]. intros k K.
  match goal with ST : stands _ _ l |- _ => rewrite (ST k K) end. cbn [base m_at m_pos after_write at_pos mem_of].
  match goal with |- (if ?c then _ else _) = _ => replace c with true by (symmetry; apply andb_true_intro; split; [apply Z.leb_le|apply Z.ltb_lt]; lia) end. f_equal. lia.
Qed.
Print Assumptions C53_write_read.
(** A position is reached exactly if it is within the bytes *)
Theorem C53_seek cur len off d p : 0 <= cur <= len -> len < 9223372036854775808 -> -9223372036854775808 < off < 9223372036854775808 ->
  (seek_position cur len off d = Ok p <-> p = off + match d with Begin => 0 | Current => cur | End_ => len end /\ 0 <= p <= len).
Proof.
  intros C L O. destruct (seek_ok (mk_mem (fun _ => 0) len cur) off d C L O) as [[I E]|[I E]]; unfold base in *; cbn [m_len m_pos] in *; rewrite E; split.
  - intros H. assert (H1 : match d with Begin => 0 | Current => cur | End_ => len end + off = p) by congruence. lia.
  - intros [H1 H2]. f_equal. lia.
  - intros H. discriminate.
  - intros [H1 H2]. exfalso. apply I. lia.
Qed.
Print Assumptions C53_seek.
(** The least offset is negated: undefined *)
Theorem C53_seek_least_refuted cur len : seek_position cur len (-9223372036854775808) Current = UB /\ seek_position cur len (-9223372036854775808) End_ = UB.
Proof. split; reflexivity. Qed.
Print Assumptions C53_seek_least_refuted.
(** The device keeps its position if the bytes under it are shortened by others: then reading goes outside of them *)
Theorem C53_shortened_refuted g w buf p n : Z.of_nat (length buf) < p < 9223372036854775808 -> 0 < n < 9223372036854775808 ->
  snd (step (mk_dev g true w buf p) (Read n)) = UB /\ snd (step (mk_dev g true w buf p) ReadChar) = UB.
Proof.
  intros P N. cbn [step d_read]. unfold read_buffer, char_at, d_len, get. cbn [d_buf d_pos]. split.
  - rewrite (proj2 (Z.ltb_lt (Z.of_nat (length buf)) _)), Bool.orb_true_r; [reflexivity|]. assert (0 <= wrap (Z.of_nat (length buf) - p)) by (apply Z.mod_pos_bound; reflexivity). lia.
  - rewrite (proj2 (Z.eqb_neq _ _)) by lia. rewrite (proj2 (Z.ltb_lt (Z.of_nat (length buf)) _)), Bool.orb_true_r by lia. reflexivity.
Qed.
Print Assumptions C53_shortened_refuted.
(** The device without bytes counts what is written *)
Theorem C53_null_length chunks : Z.of_nat (length (concat chunks)) < 9223372036854775808 -> n_len (fold_left null_write chunks null_new) = Z.of_nat (length (concat chunks)).
Proof. intros B. unfold null_new. rewrite null_length by lia. cbn. lia. Qed.
Print Assumptions C53_null_length.
(** Read byte by byte it tells its end at once, though there is a byte to look at and the position moves; and it cannot be moved back at all *)
Theorem C53_null_refuted (data : list Z) off dr : data <> [] -> Z.of_nat (length data) < 9223372036854775808 ->
  let d := mk_null (Z.of_nat (length data)) 0 in
  null_peek d = Some 0 /\ snd (null_read_char d) = None /\ n_pos (fst (null_read_char d)) = 1 /\ null_seek d off dr = Err EInvalidDeviceOperation.
Proof.
  intros N B d. unfold d, null_peek, null_read_char. cbn [n_len n_pos]. assert (Z.of_nat (length data) <> 0) by (destruct data; [contradiction|cbn; lia]).
  rewrite (proj2 (Z.eqb_neq (Z.of_nat (length data)) 0)) by assumption. rewrite (proj2 (Z.eqb_neq 0 (Z.of_nat (length data)))) by lia. auto.
Qed.
Print Assumptions C53_null_refuted.
Example C53_case : snd (run (container_dev (bs "abc")) [Write (bs "defg"); Seek 2 Begin; Write (bs "XY"); Seek (-2) End_; Read 10; ReadChar; Seek 1 Current; Seek 0 Begin; ReadAll 8; Seek 0 Begin; ReadAll 7])
  = [Ok Done; Ok Done; Ok Done; Ok Done; Ok (Bytes (bs "fg") true); Ok (Char None); Err EValueOutOfRange; Ok Done; Err EUnexpectedEOF; Ok Done; Ok (Bytes (bs "abXYefg") true)].
Proof. vm_compute. reflexivity. Qed.

(** ** C89 *)
(** The identifier of a file is the digest of as many zeros as the information has bytes: nothing of the information goes into it *)
Theorem C89_identifier_refuted text1 text2 : length (concat text1) = length (concat text2) -> Z.of_nat (length (concat text1)) < 4611686018427387904 -> identifier text1 = identifier text2.
Proof. intros L B. rewrite !identifier_zeros by lia. rewrite L. reflexivity. Qed.
Print Assumptions C89_identifier_refuted.
Theorem C89_identifier_zeros text : Z.of_nat (length (concat text)) < 4611686018427387904 -> identifier text = md5 (repeat 0 (length (concat text))).
Proof. exact (identifier_zeros text). Qed.
Print Assumptions C89_identifier_zeros.
Example C89_case : identifier [bs "<</Title("; bs "A"; bs ")>>"] = identifier [bs "<</Title("; bs "B"; bs ")>>"] /\ identifier [bs "<</Title(A)>>"] <> identifier [bs "<</Title()>>"].
Proof. split; [vm_compute; reflexivity|]. intros H. assert (E : (if list_eq_dec Z.eq_dec (identifier [bs "<</Title(A)>>"]) (identifier [bs "<</Title()>>"]) then true else false) = false) by (vm_compute; reflexivity). rewrite H in E. destruct (list_eq_dec _ _ _); congruence. Qed.
