(** Properties of stream data, of writing and loading stream objects, and of object streams *)
From Coq Require Import String.
From Verif Require Import Base TokModel WriteModel DictProofs TokProofs ObjSpec ObjPropLemmas FilterModel FilterSpec FilterProofs OwnModel ListModel UpdateSpec StreamModel StreamSpec StreamProofs StreamPropLemmas.
Local Open Scope Z_scope.
Local Notation dict := (list (list Z * obj)) (only parsing).

(** ** C60 *)
(** Data set with filters that can encode is read back, however it was cut into blocks; the dictionary declares these filters
    and nothing else is changed. zlib stands for any pair where decoding undoes encoding.
    Missing: parameters left over from former data, see below. *)
Theorem C60_set_read_partial z look ts blocks data s : undoes (zdec z) (zenc z) -> DictProofs.sorted (sdict s) -> Forall encodable ts -> bytes_ok data -> concat blocks = data ->
  parms_unused look (sdict s) ts ->
  exists s', set_data z ts blocks s = (Ok tt, s') /\ reads_as z look s' data /\ declared look s' /\ sfilters s' = ts /\
    (forall n, read_stream z look n true s' = Ok (sdata s')) /\
    (forall k, k <> bs "Filter" -> dict_get k (sdict s') = dict_get k (sdict s)) /\ DictProofs.sorted (sdict s') /\ bytes_ok (sdata s') /\
    (forall bl2, concat bl2 = data -> set_data z ts bl2 s = (Ok tt, s')).
Proof. exact (set_read z look ts blocks data s). Qed.
Print Assumptions C60_set_read_partial.

Theorem C60_append_partial z look n ts blocks data old s : undoes (zdec z) (zenc z) -> DictProofs.sorted (sdict s) -> Forall encodable ts -> bytes_ok data -> bytes_ok old -> concat blocks = data ->
  parms_unused look (sdict s) ts -> read_stream z look n false s = Ok old ->
  exists s', append_data z look n ts blocks s = (Ok tt, s') /\ reads_as z look s' (old ++ data).
Proof. exact (append_read z look n ts blocks data old s). Qed.
Print Assumptions C60_append_partial.

(** The parameters of a predictor are applied to what decompression gives. *)
Theorem C60_predictor_applies z look s p q data q1 o : sfilters s = [FFlate] -> dict_find look (bs "DecodeParms") (sdict s) = Some (ODict p) -> pred_of look p = Ok q -> p_pred q <> 1 ->
  (forall bl, concat bl = sdata s -> yields (zdec z) bl data) -> pred_bytes q data = Ok (q1, o) -> reads_as z look s (concat o).
Proof. exact (predictor_read z look s p q data q1 o). Qed.
Print Assumptions C60_predictor_applies.

(** SetData leaves /DecodeParms: what is read then is something else, whatever the compression. *)
Theorem C60_decodeparms_refuted z : undoes (zdec z) (zenc z) ->
  exists s s', DictProofs.sorted (sdict s) /\ set_data z [FFlate] [[1; 1]] s = (Ok tt, s') /\ reads_as z (fun _ => None) s' [1; 2].
Proof. exact (stale_parms z). Qed.
Print Assumptions C60_decodeparms_refuted.

(** An array of parameters longer than the list of filters is written behind the end of a vector. *)
Theorem C60_parms_array_refuted z : undoes (zdec z) (zenc z) ->
  exists s s', DictProofs.sorted (sdict s) /\ set_data z [FHex] [[1; 1]] s = (Ok tt, s') /\ forall n, read_stream z (fun _ => None) n false s' = UB.
Proof. exact (stale_array z). Qed.
Print Assumptions C60_parms_array_refuted.

(** Copying and moving: the same data is read from the copy, with the filters declared; the entries that do not concern the
    data stay; what was moved is gone. *)
Theorem C60_copy z look lhs rhs : no_chains look -> DictProofs.sorted (sdict lhs) ->
  (forall n raw, read_stream z look n raw (copy_stream look lhs rhs) = read_stream z look n raw rhs) /\
  (declared look rhs -> declared look (copy_stream look lhs rhs)) /\
  (forall k, k <> bs "Filter" -> k <> bs "DecodeParms" -> dict_get k (sdict (copy_stream look lhs rhs)) = dict_get k (sdict lhs)).
Proof. exact (copy_facts z look lhs rhs). Qed.
Print Assumptions C60_copy.

Theorem C60_move z look lhs rhs : DictProofs.sorted (sdict rhs) ->
  fst (move_stream look lhs rhs) = copy_stream look lhs rhs /\
  (forall n raw, read_stream z look n raw (snd (move_stream look lhs rhs)) = Ok []) /\ declared look (snd (move_stream look lhs rhs)).
Proof. exact (fun S0 => conj eq_refl (moved_from z look lhs rhs S0)). Qed.
Print Assumptions C60_move.

(** Hex stands for the compression. *)
Example C60_case : let z := mk_zlib hex_enc hex_dec in let nolook := fun _ : Z * Z => @None obj in
  let s := mk_sobj [(bs "Length", ONum 3); (bs "Type", OName (bs "XObject"))] (bs "old") [] in
  match set_data z [F85; FFlate] [bs "Hel"; []; bs "lo"] s with
  | (Ok _, s') => read_stream z nolook 30 false s' = Ok (bs "Hello") /\ sdata s' = bs "1cRBN2FBAi2F["
      /\ dict_get (bs "Filter") (sdict s') = Some (OArr [OName (bs "ASCII85Decode"); OName (bs "FlateDecode")])
      /\ match append_data z nolook 30 [FHex] [bs "!"] s' with (Ok _, s2) => sdata s2 = bs "48656C6C6F21" | _ => False end
  | _ => False end.
Proof. vm_compute. repeat split. Qed.

(** ** C80 *)
(** Appending to a stream that cannot be read changes nothing.
    Missing: setting data with a filter that cannot encode. *)
Theorem C80_refused_append_partial z look n ts blocks s e : read_stream z look n false s = Err e -> append_data z look n ts blocks s = (Err e, s).
Proof. exact (append_refused z look n ts blocks s e). Qed.
Print Assumptions C80_refused_append_partial.
(** Unwrapping that is refused changes nothing. *)
Theorem C80_refused_unwrap z look n s r s' : unwrap_stream z look n s = (r, s') -> r <> Ok tt -> s' = s.
Proof. exact (unwrap_refused z look n s r s'). Qed.
Print Assumptions C80_refused_unwrap.
(** The buffer is cleared before it is known whether the filter can encode. *)
Theorem C80_refused_set_refuted z : exists s s' e, (forall n, read_stream z (fun _ => None) n false s = Ok [65; 66]) /\ declared (fun _ => None) s /\
  set_data z [FLzw] [[67]] s = (Err e, s') /\ forall n, read_stream z (fun _ => None) n false s' = Ok [].
Proof. exact (refused_loses z). Qed.
Print Assumptions C80_refused_set_refuted.

Example C80_case : let z := mk_zlib hex_enc hex_dec in let s := mk_sobj (set_filter [FDct] []) [255; 216] [FDct] in
  append_data z (fun _ => None) 9 [] [[1]] s = (Err EUnsupportedFilter, s).
Proof. vm_compute. reflexivity. Qed.

(** ** C81 *)
(** Without media filters an unwrapped stream has no filters and the same data.
    Missing: media filters behind others, see below. *)
Theorem C81_unwrap_partial z look n s data : DictProofs.sorted (sdict s) -> Forall (fun t => is_media t = false) (sfilters s) -> read_stream z look n false s = Ok data ->
  exists s', unwrap_stream z look n s = (Ok tt, s') /\ sfilters s' = [] /\ (forall m raw, read_stream z look m raw s' = Ok data) /\
    (declared look s -> declared look s') /\
    (forall k, k <> bs "Filter" -> k <> bs "DecodeParms" -> dict_get k (sdict s') = dict_get k (sdict s)).
Proof. exact (unwrap_keeps z look n s data). Qed.
Print Assumptions C81_unwrap_partial.
(** With a media filter the declaration of that filter is lost, so that compressed image data counts as plain data. *)
Theorem C81_media_refuted z : exists s s', declared (fun _ => None) s /\ sfilters s = [FHex; FDct] /\ (exists n, unwrap_stream z (fun _ => None) n s = (Ok tt, s')) /\
  create_filter_list (fun _ => None) (ODict (sdict s')) = Ok [] /\ (forall n, read_stream z (fun _ => None) n false s = Err EUnsupportedFilter) /\
  forall n, read_stream z (fun _ => None) n false s' = Ok [255; 216].
Proof. exact (unwrap_loses_filter z). Qed.
Print Assumptions C81_media_refuted.

Example C81_case : let z := mk_zlib hex_enc hex_dec in
  unwrap_stream z (fun _ => None) 20 (mk_sobj (set_filter [FHex; F85] [(bs "Width", ONum 3)]) (bs "3837635552445A") [FHex; F85])
  = (Ok tt, mk_sobj [(bs "Width", ONum 3)] (bs "Hello") []).
Proof. vm_compute. reflexivity. Qed.

(** ** C63 *)
(** A stream with filters, or one that is not to be compressed, is written with its dictionary, length and data, keeps its
    data, and is loaded back from where it was written.
    Missing: streams without filters with the default options, see below; encryption. *)
Theorem C63_write_partial z look fl tight flate n r s s1 : wf_obj default_params (ODict (sdict s1)) -> Z.of_nat (length (sdata s1)) < 2 ^ 63 -> compress_step z look flate n s = (Ok tt, s1) ->
  exists text, write_stream z look fl tight flate n r s = (Ok text, with_length s1) /\ object_text fl tight r (sdict (with_length s1)) (sdata s1) text.
Proof. exact (writes_text z look fl tight flate n r s s1). Qed.
Print Assumptions C63_write_partial.
Theorem C63_write_load_partial z look fl tight flate n r s file off k text s' : options_ok fl tight -> wf_obj default_params (ODict (sdict s)) -> (S (inner (ODict (sdict s))) <= 256)%nat ->
  0 <= fst r < 2 ^ 32 -> 0 <= snd r < 2 ^ 16 -> Z.of_nat (length (sdata s)) < 2 ^ 63 -> declared look s -> sfilters s <> [] \/ flate = false ->
  write_stream z look fl tight flate n r s = (Ok text, s') -> skipn (Z.to_nat off) file = text ++ k ->
  s' = with_length s /\ load_stream look file off = Ok (r, s').
Proof. exact (write_load z look fl tight flate n r s file off k text s'). Qed.
Print Assumptions C63_write_load_partial.
(** Every stream without filters is written empty and is empty afterwards when compression is not switched off. *)
Theorem C63_uncompressed_lost_refuted z look fl tight n r s : undoes (zdec z) (zenc z) -> wf_obj default_params (ODict (sdict s)) -> bytes_ok (sdata s) -> sfilters s = [] ->
  exists text s', write_stream z look fl tight true n r s = (Ok text, s') /\ sdata s' = [] /\ object_text fl tight r (sdict s') [] text.
Proof. exact (write_loses z look fl tight n r s). Qed.
Print Assumptions C63_uncompressed_lost_refuted.

Example C63_case : let z := mk_zlib hex_enc hex_dec in let nolook := fun _ : Z * Z => @None obj in
  let s := mk_sobj (set_filter [FHex] [(bs "Type", OName (bs "XObject"))]) (bs "4869") [FHex] in
  match write_stream z nolook (mk_wf true true) false true 9 (7, 0) s with
  | (Ok text, s') => text = bs "7 0 obj
<<
/Type /XObject
/Filter /ASCIIHexDecode
/Length 4
>>
stream
4869
endstream
endobj
" /\ load_stream nolook (bs "%PDF-1.4
" ++ text) 9 = Ok ((7, 0), s') /\ sdata s' = bs "4869"
  | _ => False end.
Proof. vm_compute. repeat split. Qed.
Example C63_lost_case : let z := mk_zlib hex_enc hex_dec in
  write_stream z (fun _ => None) (mk_wf true true) false true 9 (7, 0) (mk_sobj [] (bs "important") []) = (Ok (bs "7 0 obj
<<
/Length 0
>>
stream

endstream
endobj
"), mk_sobj [(bs "Length", ONum 0)] [] []).
Proof. vm_compute. reflexivity. Qed.

(** ** C82 *)
(** The data begins behind the line end that follows the keyword, blanks before it being skipped, and has the given length.
    Missing: a file that ends before that, a negative length. *)
Theorem C82_data_found_partial look (d : dict) bl eol data k ts : Forall (fun c => c = 32 \/ c = 9) bl -> eol = [10] \/ eol = [13; 10] ->
  dict_find look (bs "Length") d = Some (ONum (Z.of_nat (length data))) -> create_filter_list look (ODict d) = Ok ts ->
  load_data look d (bl ++ eol ++ data ++ k) = Ok (mk_sobj d data ts).
Proof. exact (load_finds look d bl eol data k ts). Qed.
Print Assumptions C82_data_found_partial.
Theorem C82_short_file_refuted : exists d rest s, dict_get (bs "Length") d = Some (ONum 100) /\ rest = 10 :: bs "abc" /\ load_data (fun _ => None) d rest = Ok s /\ sdata s = bs "abc".
Proof. exact load_short. Qed.
Print Assumptions C82_short_file_refuted.
Theorem C82_negative_length_refuted : exists d s, dict_get (bs "Length") d = Some (ONum (-1)) /\ load_data (fun _ => None) d (10 :: bs "abc" ++ 10 :: bs "endstream" ++ bs " rest of the file") = Ok s /\
  sdata s = bs "abc" ++ 10 :: bs "endstream" ++ bs " rest of the file".
Proof. exact load_negative. Qed.
Print Assumptions C82_negative_length_refuted.

Example C82_case : let heap := fun r : Z * Z => if fst r =? 5 then Some (ONum 2) else None in
  load_data heap [(bs "Filter", OName (bs "Crypt")); (bs "Length", ORef 5 0)] (bs "  " ++ [13; 10; 10; 13; 10] ++ bs "endstream") = Ok (mk_sobj [(bs "Filter", OName (bs "Crypt")); (bs "Length", ORef 5 0)] [10; 13] [FCrypt]).
Proof. vm_compute. reflexivity. Qed.

(** ** C61 *)
(** Members whose texts stand at the offsets of the table, in any order: those asked for are returned in the order of the
    table, with generation 0.
    Missing: negative offsets, see below; what is returned for a number that is not in the table is no error. *)
Theorem C61_members_partial look (d : dict) data first ms k want : dict_find look (bs "N") d = Some (ONum (Z.of_nat (length ms))) -> dict_find look (bs "First") d = Some (ONum first) ->
  data = table ms ++ k -> 0 <= first ->
  Forall (fun m => 0 <= fst (fst m) < 2 ^ 32 /\ 0 <= snd (fst m) /\ first + snd (fst m) < 2 ^ 63 - 1 /\ placed data (first + snd (fst m)) (snd m)) ms ->
  object_stream look d data want = Ok (map (fun m => ((fst (fst m), 0), snd m)) (filter (fun m => existsb (Z.eqb (fst (fst m))) want) ms)).
Proof. exact (object_stream_members look d data first ms k want). Qed.
Print Assumptions C61_members_partial.
(** An object stream laid out line by line gives its members. *)
Theorem C61_layout look (d : dict) fl ms l b want : flags_ok fl -> Forall (fun m => 0 <= fst m < 2 ^ 32 /\ wf_obj default_params (snd m) /\ (S (inner (snd m)) <= 256)%nat) ms ->
  layout fl 0 ms = Ok (l, b) -> Z.of_nat (length (table l ++ b)) < 2 ^ 63 - 1 ->
  dict_find look (bs "N") d = Some (ONum (Z.of_nat (length ms))) -> dict_find look (bs "First") d = Some (ONum (Z.of_nat (length (table l)))) ->
  object_stream look d (table l ++ b) want = Ok (map (fun m => ((fst m, 0), snd m)) (filter (fun m => existsb (Z.eqb (fst m)) want) ms)).
Proof. exact (object_stream_layout look d fl ms l b want). Qed.
Print Assumptions C61_layout.
Theorem C61_negative_offset_refuted : exists d data, object_stream (fun _ => None) d data [5] = UB.
Proof. exact negative_offset. Qed.
Print Assumptions C61_negative_offset_refuted.
Theorem C61_missing_member_refuted : exists d data, object_stream (fun _ => None) d data [7] = Ok [].
Proof. exact missing_member. Qed.
Print Assumptions C61_missing_member_refuted.

(** Three numbers in a row are not a reference. *)
Example C61_case : object_stream (fun _ => None) [(bs "First", ONum 20); (bs "N", ONum 4)] (bs "4 0 5 2 6 4 7 13    1
2
<</A[3]>>R") [6; 4; 5] = Err EInvalidDataType /\
  object_stream (fun _ => None) [(bs "First", ONum 20); (bs "N", ONum 4)] (bs "4 0 5 2 6 4 7 13    1
2
<</A[3]>>3") [6; 4; 5] = Ok [((4, 0), ONum 1); ((5, 0), ONum 2); ((6, 0), ODict [(bs "A", OArr [ONum 3])])].
Proof. vm_compute. split; reflexivity. Qed.
