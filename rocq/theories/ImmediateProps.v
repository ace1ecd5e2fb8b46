(** Documents that are written while they are made *)
From Coq Require Import String Lia.
From Verif Require Import Base TokModel WriteModel ObjSpec FilterModel FilterSpec ListModel ListProofs OwnModel UpdateModel UpdateSpec StreamModel StreamSpec StreamProofs ImmediateModel ImmediateSpec ImmediateProofs ImmediatePropLemmas.
Local Open Scope Z_scope.
Local Notation dict := (list (list Z * obj)) (only parsing).

(** ** C145 *)
(** Whatever calls are made: if none of them fails, the output of every stream is closed, and all objects are written in the
    end, then an object whose stream went to the file at once stands where the table says; it is loaded with the dictionary it
    had when its stream was opened, and with the bytes that were given to the stream; its length is an object of its own,
    which also stands where the table says.
    Missing: the flag against compression must be given, and the filters are those the dictionary had before, see below;
    encryption. *)
Theorem C145_written_partial z n o header xs r ts ys d1 d e f : options_ok (wfl o) (wtight o) -> (forall q, wflate o q = false) -> Forall keeps_length (xs ++ Open r ts :: ys) ->
  run o xs (start header) = (Ok tt, d1) -> direct d1 r -> at_ref (objects d1) r = Some (ODict e) -> run o (Open r ts :: ys) d1 = (Ok tt, d) -> outputs d = [] -> completed z n o d f ->
  wf_obj default_params (ODict e) -> (S (inner (ODict e)) <= 256)%nat -> count d <= 2 ^ 32 ->
  let data := content r (xs ++ Open r ts :: ys) in Z.of_nat (length data) < 2 ^ 63 ->
  exists m off offl, dict_get (bs "Length") e = Some (ORef m 0) /\ List.In (r, off) (table f) /\ List.In ((m, 0), offl) (table f) /\
    load_object (dev f) offl = Ok ((m, 0), ONum (Z.of_nat (length data)), false) /\
    (forall look fs, look (m, 0) = Some (ONum (Z.of_nat (length data))) -> create_filter_list look (ODict e) = Ok fs -> load_stream look (dev f) off = Ok (r, mk_sobj e data fs)).
Proof. exact (written_loaded z n o header xs r ts ys d1 d e f). Qed.
Print Assumptions C145_written_partial.
(** Streams that are kept in memory are written in the end, with the bytes given since they were opened last. *)
Theorem C145_memory_partial z n o header xs d f look r b fs e : options_ok (wfl o) (wtight o) -> (forall q, wflate o q = false) -> Forall keeps_length xs ->
  run o xs (start header) = (Ok tt, d) -> completed z n o d f -> count d <= 2 ^ 32 ->
  at_ref (objects d) r = Some (ODict e) -> streams d r = Some (Memory b fs) ->
  wf_obj default_params (ODict e) -> (S (inner (ODict e)) <= 256)%nat -> Z.of_nat (length b) < 2 ^ 63 -> declared look (mk_sobj e b fs) ->
  b = content r xs /\ exists off, List.In (r, off) (table f) /\ load_stream look (dev f) off = Ok (r, with_length (mk_sobj e b fs)).
Proof. exact (memory_loaded z n o header xs d f look r b fs e). Qed.
Print Assumptions C145_memory_partial.
(** With the options a document has by default no stream can be written at once: opening it fails, the start of an object is
    left in the file, and opening it again fails too. *)
Theorem C145_default_refuted o r ts d v len l : wflate o r = true -> at_ref (objects d) r = Some v -> streams d r = Some (Direct len l false) -> is_open d r = false -> last d <> Some r ->
  exists d', open_output o r ts d = (Err ENotImplemented, d') /\ dev d' = dev (finish_last d) ++ dec (fst r) ++ [32] ++ dec (snd r) ++ bs " obj" ++ (if wtight o then [] else [10]) /\
    forall ts', open_output o r ts' d' = (Err EInternalLogic, d').
Proof. exact (default_fails o r ts d v len l). Qed.
Print Assumptions C145_default_refuted.
(** The filters with which the stream is opened are not in the file: without an entry for them made before, the stream is
    loaded as if it had none. *)
Theorem C145_filter_refuted z n o header xs r ts ys d1 d e f : options_ok (wfl o) (wtight o) -> (forall q, wflate o q = false) -> Forall keeps_length (xs ++ Open r ts :: ys) ->
  run o xs (start header) = (Ok tt, d1) -> direct d1 r -> at_ref (objects d1) r = Some (ODict e) -> run o (Open r ts :: ys) d1 = (Ok tt, d) -> outputs d = [] -> completed z n o d f ->
  wf_obj default_params (ODict e) -> (S (inner (ODict e)) <= 256)%nat -> count d <= 2 ^ 32 ->
  let data := content r (xs ++ Open r ts :: ys) in Z.of_nat (length data) < 2 ^ 63 -> dict_get (bs "Filter") e = None ->
  exists m off, List.In (r, off) (table f) /\ forall look, look (m, 0) = Some (ONum (Z.of_nat (length data))) -> load_stream look (dev f) off = Ok (r, mk_sobj e data []).
Proof.
  intros. destruct (written_loaded z n o header xs r ts ys d1 d e f) as (m & off & offl & _ & I & _ & _ & L); try assumption.
  exists m, off. split; [exact I|]. intros look LK. apply L; [exact LK|]. rewrite (filters_of look e []); [reflexivity|]. rewrite dict_find_resolve. match goal with X : dict_get (bs "Filter") e = None |- _ => rewrite X end. reflexivity.
Qed.
Print Assumptions C145_filter_refuted.
(** Opening the stream that was written last once more is undefined: the object is destroyed first. *)
Theorem C145_twice_refuted o r ts d v len l : at_ref (objects d) r = Some v -> streams d r = Some (Direct len l false) -> is_open d r = false -> last d = Some r -> fst (open_output o r ts d) = UB.
Proof. exact (twice_undefined o r ts d v len l). Qed.
Print Assumptions C145_twice_refuted.
(** So is writing to a stream while another one has been opened. *)
Theorem C145_interleaved_refuted : exists o calls, (forall q, wflate o q = false) /\ options_ok (wfl o) (wtight o) /\
  calls = [New (ODict []); New (ODict []); Stream (1, 0); Stream (2, 0); Open (1, 0) []; Open (2, 0) []; Put (1, 0) (bs "q")] /\ fst (run o calls (start [])) = UB.
Proof.
  exists (mk_wopts (mk_wf true true) false (fun _ => false)). eexists. split; [reflexivity|]. split; [split; [left; reflexivity|discriminate]|]. split; [reflexivity|]. vm_compute. reflexivity.
Qed.
Print Assumptions C145_interleaved_refuted.

(** Two streams: the first goes to the file, hexadecimal; the second is kept. *)
Definition plain_opts : wopts := mk_wopts (mk_wf true true) false (fun _ => false).
Definition two_streams : list op :=
  [New (ODict [(bs "Type", OName (bs "XObject"))]); Stream (1, 0); Open (1, 0) [FHex]; Put (1, 0) (bs "48"); Put (1, 0) (bs "69>"); Close (1, 0);
   New (ODict []); Stream (3, 0); Open (3, 0) []; Put (3, 0) (bs "Q"); Close (3, 0)].
Example C145_case : let z := mk_zlib hex_enc hex_dec in
  match run plain_opts two_streams (start (bs "%PDF" ++ [10])) with
  | (Ok _, d) =>
    match finish z 9 plain_opts d with
    | (Err ENotImplemented, f) =>
      dev f = bs "%PDF
1 0 obj
<<
/Type /XObject
/Length 2 0 R
>>
stream
4869>
endstream
endobj
2 0 obj
5
endobj
3 0 obj
<<
/Length 1
>>
stream
Q
endstream
endobj
" /\ table f = [((1, 0), 5); ((2, 0), 78); ((3, 0), 95)] /\ content (1, 0) two_streams = bs "4869>"
    | _ => False
    end
  | _ => False
  end.
Proof. vm_compute. auto. Qed.
(** The default options *)
Example C145_default_case :
  match run (mk_wopts (mk_wf false false) false (fun _ => true)) two_streams (start []) with
  | (Err ENotImplemented, d) => dev d = bs "1 0 obj
"
  | _ => False
  end.
Proof. vm_compute. reflexivity. Qed.

(** ** C146 *)
(** Objects without streams stand where the table says when the document has been closed.
    Missing: closing always ends with an error, see below. *)
Theorem C146_objects_partial z n o header xs d f r v : options_ok (wfl o) (wtight o) -> (forall q, wflate o q = false) -> Forall keeps_length xs ->
  run o xs (start header) = (Ok tt, d) -> completed z n o d f -> count d <= 2 ^ 32 ->
  at_ref (objects d) r = Some v -> streams d r = None -> wf_obj default_params v -> (S (inner v) <= 256)%nat ->
  exists off, List.In (r, off) (table f) /\ load_object (dev f) off = Ok (r, v, false).
Proof. exact (object_loaded z n o header xs d f r v). Qed.
Print Assumptions C146_objects_partial.
(** Closing a document fails whatever it contains. *)
Theorem C146_close_refuted z n o d : fst (finish z n o d) <> Ok tt /\ forall f, completed z n o d f -> finish z n o d = (Err ENotImplemented, f).
Proof. split; [apply never_ok|]. unfold completed, finish. intros f ->. reflexivity. Qed.
Print Assumptions C146_close_refuted.
(** Once a stream has been opened that goes to the file at once, the streams of all further objects are kept in memory. *)
Theorem C146_memory_refuted o xs r ts d1 d2 d : direct d1 r -> open_output o r ts d1 = (Ok tt, d2) -> run o xs d2 = (Ok tt, d) ->
  forall q, streams d2 q = None -> forall len l k, streams d q <> Some (Direct len l k).
Proof.
  intros (len & l & S0) H R q N len' l' k' S1.
  assert (O : opened d2 = true).
  { unfold open_output in H. destruct (at_ref (objects d1) r); [|discriminate]. rewrite S0 in H. destruct (is_open d1 r); [discriminate|]. unfold write_object in H. destruct (finish_same (set_opened d1)) as (E1 & _ & _ & _ & E5 & _).
    destruct (at_ref (objects (finish_last (set_opened d1))) r) as [v|]; [|discriminate]. rewrite E1 in H. cbn [set_opened streams] in H. rewrite S0 in H. destruct (wflate o r); [discriminate|]. destruct (write (wfl o) v); try discriminate.
    injection H as <-. cbn [with_outputs set_last with_dev add_entry opened]. rewrite E5. reflexivity. }
  destruct (stays_open o xs d2 d O R) as [_ X]. destruct (X q len' l' k' S1) as (a & b & Y). congruence.
Qed.
Print Assumptions C146_memory_refuted.

Example C146_case : let z := mk_zlib hex_enc hex_dec in
  match run plain_opts [New (OArr [ONum 7]); New (OBool true)] (start []) with
  | (Ok _, d) => finish z 9 plain_opts d = (Err ENotImplemented, snd (finish z 9 plain_opts d)) /\ load_object (dev (snd (finish z 9 plain_opts d))) 21 = Ok ((2, 0), OBool true, false) /\
    table (snd (finish z 9 plain_opts d)) = [((1, 0), 0); ((2, 0), 21)]
  | _ => False
  end.
Proof. vm_compute. auto. Qed.
