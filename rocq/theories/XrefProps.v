(** Properties of cross-reference tables and streams *)
From Coq Require Import String.
From Verif Require Import Base TokModel WriteModel ListModel XrefModel XrefSpec TokProofs XrefProofs XrefReadProofs XrefPropLemmas XrefLineProofs XrefStreamProofs.
Local Open Scope Z_scope.

(** Whatever is added in whatever order (each number once, from 1 on), with the empty block of an incremental update or
    without: the announced counts are right and the subsections do not overlap; each used object is listed at its offset
    with its generation, each free one as free; no number is listed twice; nothing else is listed except entry 0; the
    entries have the twenty bytes of the standard if the offset has ten digits. Missing: numbers added with two
    generations, see the refutation. *)
Theorem C19_table_lists_objects_partial adds (inc : bool) : addable adds -> inc = true \/ something adds ->
  exists secs, xref_sections (if inc then first_empty (add_objects adds) else add_objects adds) = Ok secs /\
    well_formed 0 secs /\
    (forall n g off, added_used adds n g off -> lists secs n (XUsed off g)) /\
    (forall n g, added_free adds n g -> exists m, lists secs n (XFree m g)) /\
    (forall n e e', lists secs n e -> lists secs n e' -> e = e') /\
    (forall n e, lists secs n e -> 0 <= n < xref_size (add_objects adds) /\
       match e with XUsed off g => added_used adds n g off | XFree _ g => added_free adds n g \/ (n = 0 /\ g = 65535) end) /\
    (forall n e, lists secs n e -> fits 0 e -> entry_shape e (entry_text e) /\ length (entry_text e) = 20%nat).
Proof. exact (table_lists adds inc). Qed.
Print Assumptions C19_table_lists_objects_partial.
(** The numbers below /Size are those of the objects *)
Theorem C19_size adds : addable adds ->
  (forall n, In n (map (fun x => fst (fst x)) adds) -> n < xref_size (add_objects adds)) /\
  (xref_size (add_objects adds) = 1 \/ In (xref_size (add_objects adds) - 1) (map (fun x => fst (fst x)) adds)) /\
  xref_size (first_empty (add_objects adds)) = xref_size (add_objects adds).
Proof. exact (size_of_adds adds). Qed.
Print Assumptions C19_size.
(** Objects 5 0 and 5 1 in the same list (it is ordered by number and generation): 6 0 is listed at the offset of 5 1 *)
Theorem C19_generations_refuted : exists adds secs, NoDup (map fst adds) /\ Forall (fun x => 1 <= fst (fst x) < 2 ^ 32 - 1) adds /\
  xref_sections (add_objects adds) = Ok secs /\ added_used adds 6 0 300 /\ ~ lists secs 6 (XUsed 300 0) /\ lists secs 6 (XUsed 200 1).
Proof.
  exists [((5, 0), XInUse (Some 100)); ((5, 1), XInUse (Some 200)); ((6, 0), XInUse (Some 300))].
  exists [(5, 3, [(5, XUsed 100 0); (5, XUsed 200 1); (6, XUsed 300 0)])]. split; [|split; [|split; [|split; [|split]]]].
  - repeat constructor; cbn; intuition congruence.
  - repeat constructor; cbn; lia.
  - vm_compute. reflexivity.
  - right; right; left; reflexivity.
  - intros (f & c & l & [I | []] & H1 & H2 & N). injection I as <- <- <-. discriminate.
  - exists 5, 3, [(5, XUsed 100 0); (5, XUsed 200 1); (6, XUsed 300 0)]. split; [left; reflexivity|]. repeat split; lia || reflexivity.
Qed.
Print Assumptions C19_generations_refuted.
Example C19_case :
  xref_sections (add_objects [((4, 0), XInUse (Some 70)); ((1, 2), XFreed); ((2, 1), XInUse (Some 15)); ((9, 0), XFreed);
                              ((3, 0), XFreed); ((8, 65535), XInUse (Some 4000000000))])
  = Ok [(0, 5, [(0, XFree 1 65535); (1, XFree 3 2); (2, XUsed 15 1); (3, XFree 9 0); (4, XUsed 70 0)]);
        (8, 2, [(8, XUsed 4000000000 65535); (9, XFree 0 0)])] /\
  entry_text (XUsed 4000000000 65535) = bs "4000000000 65535 n " ++ [10].
Proof. split; [vm_compute; reflexivity|vm_compute; reflexivity]. Qed.

(** A table as text, followed by "trailer", is read back: the entries known before are kept, the others are those of the
    table, offsets being moved by the offset of the header. Missing: tables of 512 subsections or more and offsets of more
    than ten digits, see the refutations. *)
Theorem C20_table_read_back_partial magic secs es k : 0 <= magic -> well_formed 0 secs ->
  Forall (limits magic) secs -> (length secs < 512)%nat -> stops k ->
  exists es', read_table 4095 magic (mk_tst [] (table_text secs ++ bs "trailer" ++ k)) es
    = Some (Ok tt, mk_tst [(TLit, bs "trailer")] k, es') /\
    forall n, 0 <= n ->
      match look es n with
      | Some e => look es' n = Some e
      | None => forall e', look es' n = Some e' <-> exists e, lists secs n e /\ e' = as_read magic e
      end.
Proof. exact (table_read_back magic secs es k). Qed.
Print Assumptions C20_table_read_back_partial.
(** From the objects added to what the reader knows *)
Theorem C20_objects_read_back_partial magic adds (inc : bool) secs k :
  0 <= magic -> addable adds -> Forall (fits_add magic) adds -> inc = true \/ something adds ->
  xref_sections (if inc then first_empty (add_objects adds) else add_objects adds) = Ok secs ->
  (length secs < 512)%nat -> stops k ->
  exists es', read_table 4095 magic (mk_tst [] (table_text secs ++ bs "trailer" ++ k)) []
    = Some (Ok tt, mk_tst [(TLit, bs "trailer")] k, es') /\
    forall n, 1 <= n -> forall e', look es' n = Some e' <-> exists e, due adds n e /\ e' = as_read magic e.
Proof. exact (adds_read_back magic adds inc secs k). Qed.
Print Assumptions C20_objects_read_back_partial.
(** 512 subsections: the reader gives up *)
Theorem C20_subsections_refuted magic secs es k : 0 <= magic -> well_formed 0 secs -> Forall (limits magic) secs ->
  (512 <= length secs)%nat ->
  exists s es', read_table 4095 magic (mk_tst [] (table_text secs ++ k)) es = Some (Err ENoEOFToken, s, es').
Proof. exact (table_too_many magic secs es k). Qed.
Print Assumptions C20_subsections_refuted.
(** An offset of 10^10: the object is lost without an error *)
Theorem C20_offset_refuted : exists secs s es, xref_sections (add_objects [((1, 0), XInUse (Some (10 ^ 10)))]) = Ok secs /\
  read_table 4095 0 (mk_tst [] (table_text secs ++ bs "trailer" ++ bs "<<>>")) [] = Some (Ok tt, s, es) /\ look es 1 = None.
Proof.
  eexists _, _, _. split; [vm_compute; reflexivity|]. split; [vm_compute; reflexivity|]. vm_compute; reflexivity.
Qed.
Print Assumptions C20_offset_refuted.
Example C20_case :
  match xref_sections (add_objects [((4, 0), XInUse (Some 70)); ((1, 2), XFreed); ((2, 1), XInUse (Some 15)); ((8, 3), XFreed)]) with
  | Ok secs => read_table 4095 7 (mk_tst [] (table_text secs ++ bs "trailer" ++ bs "<<>>")) [None; None; Some (RUsed 1 1)]
  | _ => None
  end
  = Some (Ok tt, mk_tst [(TLit, bs "trailer")] (bs "<<>>"),
          [Some (RFree 1 65535); Some (RFree 8 2); Some (RUsed 1 1); None; Some (RUsed 77 0); None; None; None; Some (RFree 0 3)]).
Proof. vm_compute. reflexivity. Qed.

(** With entry 0 in the table (an incremental update, or number 1 added) the links visit the free numbers, each once, in
    ascending order, and come back to 0. Missing: tables without entry 0. *)
Theorem C21_free_chain_partial adds (inc : bool) secs : addable adds ->
  xref_sections (if inc then first_empty (add_objects adds) else add_objects adds) = Ok secs ->
  inc = true \/ (exists e, due adds 1 e) ->
  exists l, free_chain secs 0 l /\ ascends l /\ (forall n, In n l <-> exists g, added_free adds n g).
Proof. exact (free_chain_of_adds adds inc secs). Qed.
Print Assumptions C21_free_chain_partial.
(** No object 1: there is no entry 0 to start from *)
Theorem C21_no_head_refuted : exists adds secs, addable adds /\ something adds /\ xref_sections (add_objects adds) = Ok secs /\
  added_free adds 5 1 /\ forall l, ~ free_chain secs 0 l.
Proof.
  exists [((2, 0), XInUse (Some 15)); ((5, 1), XFreed)]. eexists. split; [|split; [|split; [vm_compute; reflexivity|split]]].
  - split; [repeat constructor; cbn; intuition congruence|repeat constructor; cbn; lia].
  - exists 5, 1. right. right; left; reflexivity.
  - right; left; reflexivity.
  - assert (N : forall x, ~ lists [(2, 1, [(2, XUsed 15 0)]); (5, 1, [(5, XFree 0 1)])] 0 x).
    { intros x. apply (wf_not_below 1); [|lia]. cbn. lia. }
    intros l F. inversion F; subst; eapply N; eassumption.
Qed.
Print Assumptions C21_no_head_refuted.
Example C21_case : exists secs,
  xref_sections (add_objects [((4, 0), XInUse (Some 70)); ((1, 2), XFreed); ((2, 1), XInUse (Some 15)); ((9, 0), XFreed); ((3, 0), XFreed)]) = Ok secs /\
  free_chain secs 0 [1; 3; 9].
Proof.
  eexists. split; [vm_compute; reflexivity|].
  assert (K : forall f c l s n e, In (f, c, l) s -> f <= n -> n < f + c -> nth_error (map snd l) (Z.to_nat (n - f)) = Some e -> lists s n e).
  { intros f c l s n e H1 H2 H3 H4. exists f, c, l. easy. }
  apply chain_step with (g := 65535); [eapply K; [left; reflexivity|lia|lia|vm_compute; reflexivity]|lia|].
  apply chain_step with (g := 2); [eapply K; [left; reflexivity|lia|lia|vm_compute; reflexivity]|lia|].
  apply chain_step with (g := 0); [eapply K; [left; reflexivity|lia|lia|vm_compute; reflexivity]|lia|].
  apply chain_end with (g := 0). eapply K; [right; left; reflexivity|lia|lia|vm_compute; reflexivity].
Qed.

(** A cross-reference stream for the objects added, among them the stream object [me] itself with a dummy offset, written
    at [off]: reading its data with the /W and /Index written gives each object its entry, [me] the offset [off].
    Missing: offsets that need more than four bytes. *)
Theorem C22_stream_read_back_partial adds (inc : bool) secs me off dummy : addable adds -> Forall fits_add_stream adds ->
  In (me, XInUse (Some dummy)) adds -> 0 <= off < 2 ^ 32 ->
  xref_sections (if inc then first_empty (add_objects adds) else add_objects adds) = Ok secs ->
  exists data es, stream_data me off secs = Ok data /\ parse_stream 1 4 2 (stream_index secs) data [] = Ok es /\
    forall n, 1 <= n -> forall x, look es n = Some x <-> exists e, due (placed me off adds) n e /\ x = as_read 0 e.
Proof. exact (stream_of_adds adds inc secs me off dummy). Qed.
Print Assumptions C22_stream_read_back_partial.
(** Larger offsets are cut: every object beyond 4 GiB is read at another offset *)
Theorem C22_offset_refuted off g k : 2 ^ 32 <= off -> exists v, read_raw 1 4 2 (entry_raw (XUsed off g) ++ k) = Ok (RUsed v (u16 g)) /\ v <> off.
Proof.
  intros H. exists (u32 off). split.
  - destruct (raw_read (XUsed off g) k) as [-> _]. cbn [cut as_read]. rewrite Z.add_0_r. reflexivity.
  - pose proof (Z.mod_pos_bound off (2 ^ 32) ltac:(lia)). unfold u32. lia.
Qed.
Print Assumptions C22_offset_refuted.
(** Fields of any widths, as other programs write them: big-endian numbers, the type is 1 where it has no bytes *)
Definition number (l : list Z) : Z := fold_left (fun x b => 256 * x + b) l 0.
Lemma read_field_number : forall l k acc, bytes_ok l -> 0 <= acc -> (acc + 1) * 256 ^ Z.of_nat (length l) <= 2 ^ 64 ->
  read_field (length l) acc (l ++ k) = Ok (fold_left (fun x b => 256 * x + b) l acc, k).
Proof.
  induction l as [|b l IH]; intros k acc B A L; [reflexivity|]. inversion B as [|? ? B1 B2]; subst. assert (0 <= b < 256) by exact B1. cbn [length] in L. rewrite Nat2Z.inj_succ, Z.pow_succ_r in L by lia. cbn [length app read_field fold_left].
  pose proof (Z.pow_pos_nonneg 256 (Z.of_nat (length l)) ltac:(lia) ltac:(lia)) as P. unfold u64. assert (acc * 256 < 2 ^ 64) by nia. rewrite (Z.mod_small (acc * 2 ^ 8)) by (change (2 ^ 8) with 256; lia).
  change (2 ^ 8) with 256. rewrite (Z.mul_comm acc 256). apply IH; [exact B2|lia|nia].
Qed.
Lemma read_width_number l k : bytes_ok l -> (length l <= 8)%nat -> read_width (Z.of_nat (length l)) (l ++ k) = Ok (number l, k).
Proof.
  intros B L. unfold read_width. destruct (Z.ltb_spec 8 (Z.of_nat (length l))); [lia|]. rewrite Nat2Z.id. apply read_field_number; [exact B|lia|]. change (0 + 1) with 1. rewrite Z.mul_1_l. change (2 ^ 64) with (256 ^ 8). apply Z.pow_le_mono_r; lia.
Qed.
Theorem C22_field_widths a b c k : bytes_ok a -> bytes_ok b -> bytes_ok c -> (length a <= 8)%nat -> (length b <= 8)%nat -> (length c <= 8)%nat ->
  read_raw (Z.of_nat (length a)) (Z.of_nat (length b)) (Z.of_nat (length c)) (a ++ b ++ c ++ k) =
  let v := number b in let w := number c mod 2 ^ 32 in
  match a, number a with
  | [], _ => Ok (RUsed v w)
  | _, 0 => Ok (RFree v w)
  | _, 1 => Ok (RUsed v w)
  | _, 2 => Ok (RComp v w)
  | _, _ => Err EInvalidXRefType
  end.
Proof.
  intros A B C LA LB LC. unfold read_raw. rewrite !read_width_number by assumption. cbn [bind fst snd]. rewrite !read_width_number by assumption. cbn [bind fst snd]. rewrite !read_width_number by assumption. cbn [bind fst snd]. cbv zeta.
  destruct a as [|x a]; [reflexivity|]. destruct (Z.eqb_spec (Z.of_nat (length (x :: a))) 0) as [E|_]; [cbn in E; lia|]. set (t := number (x :: a)). clearbody t. unfold u32. destruct t as [|[p|p|]|p]; try reflexivity; destruct p; reflexivity.
Qed.
Print Assumptions C22_field_widths.
Example C22_case :
  match xref_sections (add_objects [((4, 0), XInUse (Some 4294967295)); ((1, 2), XFreed); ((2, 1), XInUse (Some 305419896))]) with
  | Ok secs => do d <- stream_data (4, 0) 500 secs; do es <- parse_stream 1 4 2 (stream_index secs) d []; Ok (d, es)
  | _ => UB
  end = Ok ([0; 0; 0; 0; 1; 255; 255;  0; 0; 0; 0; 0; 0; 2;  1; 18; 52; 86; 120; 0; 1;  1; 0; 0; 1; 244; 0; 0],
            [Some (RFree 1 65535); Some (RFree 0 2); Some (RUsed 305419896 1); None; Some (RUsed 500 0)]).
Proof. vm_compute. reflexivity. Qed.

(** Any widths, any index, entries already known or not: if the data consists of whole entries nothing is read beyond it.
    Missing: data that ends inside an entry (and sums of /Index beyond 64 bits, a signed overflow). *)
Theorem C23_stream_bounds_partial w0 w1 w2 idx data es : sums_ok idx ->
  (w0 + w1 + w2 | Z.of_nat (length data)) -> parse_stream w0 w1 w2 idx data es <> UB.
Proof. exact (parse_stream_in w0 w1 w2 idx data es). Qed.
Print Assumptions C23_stream_bounds_partial.
(** Eight bytes with entries of seven: the second entry reads six bytes behind the data *)
Theorem C23_stream_bounds_refuted : exists data, length data = 8%nat /\ bytes_ok data /\ sums_ok [0; 2] /\
  parse_stream 1 4 2 [0; 2] data [] = UB.
Proof.
  exists [1; 0; 0; 0; 9; 0; 0; 1]. split; [reflexivity|]. split; [repeat constructor; lia|]. split; [vm_compute; auto|vm_compute; reflexivity].
Qed.
Print Assumptions C23_stream_bounds_refuted.
Example C23_case :
  parse_stream 1 2 1 [3; 1; 0; 2] [2; 1; 0; 5;  1; 0; 9; 0;  0; 0; 3; 7] [] =
  Ok [Some (RUsed 9 0); Some (RFree 3 7); None; Some (RComp 256 5)] /\
  parse_stream 1 2 1 [0; 3] [1; 0; 9; 0;  0; 0; 3; 7] [] = Err ENoXRef /\
  parse_stream 0 2 0 [0; 2] [1; 0; 9; 0] [] = Ok [Some (RUsed 256 0); Some (RUsed 2304 0)] /\
  parse_stream 1 9 0 [0; 1] [1; 0; 9; 0; 0; 0; 0; 0; 0; 0] [] = Err EInvalidXRefStream.
Proof. repeat split; vm_compute; reflexivity. Qed.

(** Each of the three line ends of the standard (space and CR, space and LF, CR and LF) may end an entry *)
Theorem C20_entry_line_ends magic e eol : fits magic e -> 0 <= magic -> In eol [[32; 13]; [32; 10]; [13; 10]] ->
  scan_entry magic (firstn 18 (entry_text e) ++ eol) = Ok (as_read magic e).
Proof. exact (entry_line_ends magic e eol). Qed.
Print Assumptions C20_entry_line_ends.
Example C20_line_ends_case : scan_entry 7 (bs "0000004711 00002 n" ++ [13; 10]) = Ok (as_read 7 (XUsed 4711 2)) /\
  scan_entry 7 (bs "0000004711 00002 n" ++ [10; 10]) <> Ok (as_read 7 (XUsed 4711 2)).
Proof. split; vm_compute; [reflexivity|discriminate]. Qed.

(** The token that ends a table, the keyword of the trailer or any other that is no number, is read again after it *)
Theorem C20_end_token k buf magic s es t s' : tq s = [] -> next_token buf s = Some (t, s') -> (length (snd t) <= buf)%nat -> from_chars_int (snd t) = None ->
  exists s1, read_sections (S k) buf magic s es = (Ok tt, s1, es) /\ next_token buf s1 = Some (t, s').
Proof.
  intros Q N L F. destruct t as [ty w]. cbn [snd] in L, F. assert (Q' : tq s' = []).
  { unfold next_token in N. rewrite Q in N. destruct (tok buf (tin s)) as [[u r]|]; [|discriminate]. injection N as _ <-. reflexivity. }
  assert (E : enqueue s' (ty, w) = mk_tst [(ty, w)] (tin s')) by (unfold enqueue; rewrite Q'; reflexivity).
  assert (E2 : next_token buf (mk_tst [(ty, w)] (tin s')) = Some (ty, w, mk_tst [] (tin s'))) by (unfold next_token; cbn [tq tin]; rewrite firstn_all2 by exact L; reflexivity).
  assert (E3 : mk_tst [] (tin s') = s') by (destruct s' as [q i]; cbn in Q'; rewrite Q'; reflexivity).
  exists (mk_tst [(ty, w)] (tin s')). split; [|rewrite E2, E3; reflexivity]. cbn [read_sections]. rewrite N. cbn [snd]. rewrite E. destruct (beq w (bs "trailer")); [reflexivity|]. unfold next_number. rewrite E2. cbn [snd]. rewrite F. cbn [ends_table]. rewrite E3, E. reflexivity.
Qed.
Print Assumptions C20_end_token.
Example C20_end_token_case : exists s1 s2 s', read_sections 9 4095 0 (mk_tst [] (bs " oops trailer")) [] = (Ok tt, s1, []) /\ next_token 4095 s1 = Some ((TLit, bs "oops"), s2) /\
  read_sections 9 4095 0 s2 [] = (Ok tt, s', []) /\ tq s' = [(TLit, bs "trailer")].
Proof. eexists _, _, _. split; [vm_compute; reflexivity|]. split; [vm_compute; reflexivity|]. split; vm_compute; reflexivity. Qed.
