(** Properties C09-C16, C64, C65: stream filters. [yields f blocks out]: filter [f], given the blocks one
    after the other, writes the bytes [out]. *)
From Coq Require Import String.
From Verif Require Import Base TokModel WriteModel FilterModel FilterSpec FilterProofs ChainProofs PredProofs LzwProofs FilterPropLemmas.
Local Open Scope Z_scope.

(** ** C09 *)
Theorem C09_hex_round_trip data : bytes_ok data ->
  exists text, bytes_ok text /\
    (forall blocks, concat blocks = data -> yields hex_enc blocks text) /\
    (forall blocks, concat blocks = text -> yields hex_dec blocks data).
Proof. exact (hex_undoes data). Qed.
Print Assumptions C09_hex_round_trip.

Example C09_case : f_run hex_enc [[0; 171]; [255]] = Ok [bs "00"; bs "AB"; bs "FF"] /\
  f_run hex_dec [bs "0"; bs "0A"; bs "BFF"] = Ok [[0]; [171]; [255]].
Proof. split; vm_compute; reflexivity. Qed.

(** ** C10 *)
(** Missing: texts with an even number of digits and the marker '>'; data after the marker. *)
Theorem C10_hex_standard_partial t d blocks : hex_plain t d ->
  (concat blocks = t -> yields hex_dec blocks d) /\
  (forall a va ws tail, digit_value a = Some va -> forallb white ws = true -> forallb white tail = true ->
     concat blocks = t ++ a :: ws ++ 62 :: tail -> yields hex_dec blocks (d ++ [16 * va])).
Proof.
  exact (fun P => conj (hex_plain_yields t d blocks P)
    (fun a va ws tail Ha Hw Ht => hex_odd_yields t d a va ws tail blocks P Ha Hw Ht)).
Qed.
Print Assumptions C10_hex_standard_partial.

Example C10_case : hex_plain (bs "4 1" ++ [10]) [65] /\ f_run hex_dec [bs "4 "; bs "1" ++ [10]; bs "7>"] = Ok [[65]; [112]].
Proof.
  split; [|vm_compute; reflexivity].
  apply (hp_byte 52 49 [32] 4 1 [10] []); try reflexivity. apply hp_ws; [reflexivity|constructor].
Qed.

Theorem C10_hex_marker_refuted : exists text data, hex_encodes text data /\
  forall out, yields hex_dec [text] out -> out <> data.
Proof. exact hex_marker_refuted. Qed.
Print Assumptions C10_hex_marker_refuted.

(** ** C11 *)
Theorem C11_ascii85_round_trip data : bytes_ok data ->
  exists text, bytes_ok text /\
    (forall blocks, concat blocks = data -> yields a85_enc blocks text) /\
    (forall blocks, concat blocks = text -> yields a85_dec blocks data).
Proof. exact (a85_undoes data). Qed.
Print Assumptions C11_ascii85_round_trip.

(** The text is the one the standard describes and uses its alphabet. *)
Theorem C11_ascii85_text data blocks : bytes_ok data -> concat blocks = data ->
  yields a85_enc blocks (ascii85 data) /\ Forall (fun c => 33 <= c <= 117 \/ c = 122) (ascii85 data).
Proof. exact (fun H E => conj (a85_enc_yields data H blocks E) (ascii85_alphabet data H)). Qed.
Print Assumptions C11_ascii85_text.

Example C11_case : ascii85 (bs "Man " ++ [0; 0; 0; 0] ++ bs "is") = bs "9jqo^zBla" /\
  match f_run a85_dec [bs "9jq"; bs "o^zB"; bs "la"] with Ok w => concat w = bs "Man " ++ [0; 0; 0; 0] ++ bs "is" | _ => False end.
Proof. split; vm_compute; reflexivity. Qed.

(** ** C12 *)
(** [chain_gives fs data out]: writing [data], in whatever blocks, to the chain gives [out]. *)
Theorem C12_filter_chains ps : Forall (fun p => undoes (snd p) (fst p)) ps -> forall data, bytes_ok data ->
  exists text, bytes_ok text /\
    (forall bl, concat bl = data -> exists w, chain_run (encode_stack (map fst ps)) bl = Ok w /\ concat w = text) /\
    (forall bl, concat bl = text -> exists w, chain_run (decode_stack (map snd ps)) bl = Ok w /\ concat w = data).
Proof. exact (chains_undo ps). Qed.
Print Assumptions C12_filter_chains.

(** The same through the reading interface, with read requests of any sizes: nothing but the data is
    delivered, the end is reported after the data only, and is reached. *)
Theorem C12_reading_chains ps data sizes : Forall (fun p => undoes (snd p) (fst p)) ps -> ps <> [] -> bytes_ok data ->
  Forall (fun n => (1 <= n)%nat) sizes ->
  exists text, (forall bl, concat bl = data -> exists w, chain_run (encode_stack (map fst ps)) bl = Ok w /\ concat w = text) /\
  exists o e, decode_read (map snd ps) text sizes = Ok (o, e) /\ (exists r, data = o ++ r) /\ (e = true -> o = data) /\
    ((length data + length text + 2 <= length sizes)%nat -> e = true).
Proof. exact (reading_chains ps data sizes). Qed.
Print Assumptions C12_reading_chains.

(** The filters of C09 and C11 qualify. *)
Theorem C12_filters_qualify : Forall (fun p => undoes (snd p) (fst p)) [(hex_enc, hex_dec); (a85_enc, a85_dec)].
Proof. exact (Forall_cons (hex_enc, hex_dec) hex_undoes (Forall_cons (a85_enc, a85_dec) a85_undoes (Forall_nil _))). Qed.
Print Assumptions C12_filters_qualify.

Example C12_case :
  match chain_run (encode_stack [hex_enc; a85_enc]) [bs "He"; bs "y"] with
  | Ok w => decode_read [hex_dec; a85_dec] (concat w) (repeat 3%nat 15) = Ok (bs "Hey", true)
            /\ decode_read [a85_dec; hex_dec] (concat w) (repeat 3%nat 15) <> Ok (bs "Hey", true)
  | _ => False end.
Proof. vm_compute. split; [reflexivity|discriminate]. Qed.

(** ** C13 *)
(** A stream dictionary: what its /Filter entry declares, nothing without an entry (a reference to a
    missing object counts as none). Anything else is refused. *)
Theorem C13_declared_filters heap d ts :
  create_filter_list heap (ODict d) = Ok ts <->
  match find (fun p => beq (fst p) (bs "Filter")) d with
  | None => ts = []
  | Some (_, entry) => declares heap entry ts \/ ((forall v, ~ says heap entry v) /\ ts = [])
  end.
Proof. exact (filter_dict heap d ts). Qed.
Print Assumptions C13_declared_filters.

Theorem C13_declared_name heap n ts :
  create_filter_list heap (OName n) = Ok ts <-> exists t, n = std_filter t /\ ts = [t].
Proof. exact (filter_name heap n ts). Qed.
Print Assumptions C13_declared_name.

Example C13_case : create_filter_list (fun k => if fst k =? 7 then Some (OName (bs "LZWDecode")) else None)
  (ODict [(bs "Length", ONum 5); (bs "Filter", OArr [OName (bs "ASCII85Decode"); ORef 7 0])]) = Ok [F85; FLzw].
Proof. vm_compute. reflexivity. Qed.

(** Given the array itself (as PdfFilter.h:329-337 allows), no filter is found. *)
Theorem C13_array_object_refuted : exists heap entry ts,
  declares heap entry ts /\ ts <> [] /\ create_filter_list heap entry = Ok [].
Proof. exact filter_array_object_refuted. Qed.
Print Assumptions C13_array_object_refuted.

(** ** C14 *)
(** Missing: Average rows, rows that are not whole bytes, Sub and Paeth with pixels that are not whole
    bytes; all three are false, see below. *)
Theorem C14_png_predictors_partial pr colors bpc columns rows blocks :
  params_ok colors bpc columns -> 10 <= pr < 2 ^ 31 -> (columns * colors * bpc) mod 8 = 0 ->
  Forall (fun tr => (fst tr = 0 \/ fst tr = 2 \/ ((colors * bpc) mod 8 = 0 /\ (fst tr = 1 \/ fst tr = 4))) /\
                    Z.of_nat (length (snd tr)) = row_bytes colors bpc columns /\ bytes_ok (snd tr)) rows ->
  concat blocks = png_rows (pixel_bytes colors bpc) (repeat 0 (Z.to_nat (row_bytes colors bpc columns))) rows ->
  yields (pred_dec pr colors bpc columns) blocks (concat (map snd rows)).
Proof. exact (png_decodes pr colors bpc columns rows blocks). Qed.
Print Assumptions C14_png_predictors_partial.

Theorem C14_tiff_predictor_partial colors columns rows blocks :
  params_ok colors 8 columns ->
  Forall (fun row => Z.of_nat (length row) = columns * colors /\ bytes_ok row) rows ->
  concat blocks = tiff_rows colors rows ->
  yields (pred_dec 2 colors 8 columns) blocks (concat rows).
Proof. exact (tiff_decodes colors columns rows blocks). Qed.
Print Assumptions C14_tiff_predictor_partial.

Example C14_case :
  png_rows 2 [0; 0; 0; 0] [(1, [1; 2; 200; 100]); (4, [5; 250; 6; 7]); (2, [9; 9; 9; 9])] =
    [1; 1; 2; 199; 98; 4; 4; 248; 62; 13; 2; 4; 15; 3; 2] /\
  match f_run (pred_dec 15 2 8 2) [[1; 1; 2]; [199; 98; 4; 4; 248; 62; 13; 2; 4]; [15; 3; 2]] with
  | Ok w => concat w = [1; 2; 200; 100; 5; 250; 6; 7; 9; 9; 9; 9] | _ => False end.
Proof. split; vm_compute; reflexivity. Qed.

Theorem C14_average_refuted : exists rows, Forall (fun tr => fst tr = 3 /\ bytes_ok (snd tr)) rows /\
  forall out, yields (pred_dec 13 1 8 1) [png_rows 1 [0] rows] out -> out <> concat (map snd rows).
Proof. exact average_refuted. Qed.
Print Assumptions C14_average_refuted.

(** Sub with 4 bits per pixel; rows of 12 bits; undefined behaviour: Paeth with 4 bits per pixel, sizes
    whose product exceeds [int]. *)
Theorem C14_subbyte_refuted : exists row, bytes_ok row /\
  forall out, yields (pred_dec 11 1 4 4) [png_rows (pixel_bytes 1 4) [0; 0] [(1, row)]] out -> out <> row.
Proof. exact subbyte_refuted. Qed.
Print Assumptions C14_subbyte_refuted.

Theorem C14_odd_row_refuted : exists row, bytes_ok row /\ Z.of_nat (length row) = row_bytes 1 1 12 /\
  forall out, yields (pred_dec 12 1 1 12) [png_rows (pixel_bytes 1 1) [0; 0] [(2, row)]] out -> out <> row.
Proof. exact odd_row_refuted. Qed.
Print Assumptions C14_odd_row_refuted.

Theorem C14_undefined_refuted :
  f_run (pred_dec 14 1 4 4) [[4; 1]] = UB /\ f_run (pred_dec 12 65536 65536 1) [] = UB.
Proof. exact predictor_undefined_refuted. Qed.
Print Assumptions C14_undefined_refuted.

(** ** C15 *)
(** Neither literal nor repeated runs come out right. *)
Theorem C15_literal_run_refuted : exists text data, run_length text data /\
  forall out, yields rle_dec [text] out -> out <> data.
Proof. exact rle_refuted. Qed.
Print Assumptions C15_literal_run_refuted.
Theorem C15_repeated_run_refuted : exists text data, run_length text data /\
  forall out, yields rle_dec [text] out -> out <> data.
Proof. exact rle_run_refuted. Qed.
Print Assumptions C15_repeated_run_refuted.

(** ** C16 *)
(** Missing: data delivered in more than one block, which is false. *)
Theorem C16_lzw_one_block_partial data chunks : bytes_ok data -> lzw_stream 0 chunks (byte_bits data) ->
  yields lzw_dec [data] (concat chunks).
Proof. exact (fun H S => lzw_decodes data chunks (byte_bits data) S H eq_refl). Qed.
Print Assumptions C16_lzw_one_block_partial.

(** The example of ISO 32000 7.4.4.2 *)
Example C16_case : (exists chunks, concat chunks = iso_lzw_data /\ lzw_stream 0 chunks (byte_bits iso_lzw)) /\
  match f_run lzw_dec [iso_lzw] with Ok w => concat w = iso_lzw_data | _ => False end.
Proof. split; [exact iso_lzw_stream|vm_compute; reflexivity]. Qed.

Theorem C16_lzw_splits_refuted : exists chunks a b, lzw_stream 0 chunks (byte_bits (a ++ b)) /\ bytes_ok (a ++ b) /\
  forall out, yields lzw_dec [a; b] out -> out <> concat chunks.
Proof. exact lzw_split_refuted. Qed.
Print Assumptions C16_lzw_splits_refuted.

(** ** C64 *)
(** Missing: the marker "~>" cut in two. Something may follow the marker in its block. *)
Theorem C64_ascii85_conforming_partial data u bl b rest : bytes_ok data -> spaced (ascii85 data) u -> concat bl ++ b = u ->
  yields a85_dec (bl ++ [b ++ 126 :: 62 :: rest]) data.
Proof. exact (a85_conforming data u bl b rest). Qed.
Print Assumptions C64_ascii85_conforming_partial.

Example C64_case : match f_run a85_dec [bs "9j qo"; bs "^Bl" ++ [10] ++ bs "a~>xx"] with Ok w => concat w = bs "Man is" | _ => False end.
Proof. vm_compute. reflexivity. Qed.

Theorem C64_marker_split_refuted : exists data b1 b2, bytes_ok data /\ b1 ++ b2 = ascii85 data ++ bs "~>" /\
  forall out, yields a85_dec [b1; b2] out -> out <> data.
Proof. exact a85_marker_split_refuted. Qed.
Print Assumptions C64_marker_split_refuted.

(** ** C65 *)
(** No output of either encoder holds the end-of-data marker the standard demands. *)
Theorem C65_eod_marker_refuted data bl out : bytes_ok data -> concat bl = data ->
  (yields hex_enc bl out -> ~ In 62 out) /\ (yields a85_enc bl out -> ~ In 126 out).
Proof. exact (no_marker_refuted data bl out). Qed.
Print Assumptions C65_eod_marker_refuted.

Example C65_case : f_run hex_enc [[65]] = Ok [bs "41"] /\ f_run a85_enc [[65]] = Ok [bs "5l"].
Proof. split; vm_compute; reflexivity. Qed.
