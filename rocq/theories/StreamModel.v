(** The data of stream objects: base/PdfObjectStream.cpp with base/PdfMemoryObjectStream.cpp as provider,
    base/PdfObject.cpp:209-283 Write, base/PdfParserObject.cpp:161-246 parseStream, base/PdfObjectStreamParser.cpp. *)
From Coq Require Import String.
From Verif Require Import Base TokModel WriteModel FilterModel OwnModel ListModel XrefModel UpdateModel.
Local Open Scope Z_scope.
Local Notation dict := (list (list Z * obj)) (only parsing).

(** A stream object: the dictionary of its parent, m_buffer of the provider, m_Filters. The operations come one after the
    other, so that m_locked is never set when one starts. *)
Record sobj := mk_sobj { sdict : dict; sdata : list Z; sfilters : list ftype }.
(** zlib in both directions *)
Record zlib := mk_zlib { zenc : filt; zdec : filt }.

(** ** Reading *)

(** FindKeyAs<int64_t>, PdfDictionary.h:352-359 *)
Definition parm (look : Z * Z -> option obj) (d : dict) (k : list Z) (def : Z) : res Z :=
  match dict_find look k d with
  | None => Ok def
  | Some (ONum n) => Ok n
  | Some _ => Err EInvalidDataType
  end.
(** PdfFiltersPrivate.cpp:32-39: the numbers in the dictionary; /EarlyChange is read and not used *)
Definition pred_of (look : Z * Z -> option obj) (d : dict) : res pred :=
  do p <- parm look d (bs "Predictor") 1;
  do c <- parm look d (bs "Colors") 1;
  do b <- parm look d (bs "BitsPerComponent") 8;
  do w <- parm look d (bs "Columns") 1;
  do e <- parm look d (bs "EarlyChange") 1;
  pred_new p c b w.
(** 525-527, 556-559 and 690-691, 758-761: what the filter puts out goes through the predictor *)
Definition with_pred (f : filt) (p : res pred) : filt :=
  mk_filt (f_st f * pred) (do q <- p; do s <- f_begin f; Ok (s, q))
    (fun s b => do (s1, w) <- f_block f (fst s) b; do (q1, o) <- push_all pred_block (snd s) w; Ok ((s1, q1), o))
    (fun s => do w <- f_end f (fst s); do (q1, o) <- push_all pred_block (snd s) w; Ok o).
(** PdfFilter.cpp:56-64: the filters that exist; only Flate and LZW use the parameters *)
Definition decoder (z : zlib) (look : Z * Z -> option obj) (t : ftype) (p : option dict) : res filt :=
  match filter_decoder (zdec z) t with
  | None => Err EUnsupportedFilter
  | Some f =>
    match t, p with
    | FFlate, Some d | FLzw, Some d => Ok (with_pred f (pred_of look d))
    | _, _ => Ok f
    end
  end.
(** PdfObjectStream.cpp:541-583: the media filters stand last; the result is (others, media). PdfFilterType::None does not
    occur. *)
Definition is_media (t : ftype) : bool := match t with FCcitt | FJbig2 | FDct | FJpx => true | _ => false end.
Fixpoint strip_media (ts : list ftype) : res (list ftype * list ftype) :=
  match ts with
  | [] => Ok ([], [])
  | t :: r =>
    if is_media t then (if forallb is_media r then Ok ([], ts) else Err EUnsupportedFilter)
    else do (a, m) <- strip_media r; Ok (t :: a, m)
  end.
(** 309-331: the parameters for each of the [n] filters; writing behind the last one is undefined *)
Fixpoint fill_parms (look : Z * Z -> option obj) (i n : nat) (l : list obj) (acc : list (option dict)) : res (list (option dict)) :=
  match l with
  | [] => Ok acc
  | x :: r =>
    match resolve look x with
    | Some (ODict d) => if Nat.ltb i n then fill_parms look (S i) n r (XrefModel.set_nth i (Some d) acc) else UB
    | _ => fill_parms look (S i) n r acc
    end
  end.
Definition parms (look : Z * Z -> option obj) (d : dict) (n : nat) : res (list (option dict)) :=
  match dict_find look (bs "DecodeParms") d with
  | Some (ODict p) => Ok (repeat (Some p) n)
  | Some (OArr l) => fill_parms look 0 n l (repeat None n)
  | _ => Ok (repeat None n)
  end.
Fixpoint decoders (z : zlib) (look : Z * Z -> option obj) (ts : list ftype) (ps : list (option dict)) : res (list filt) :=
  match ts, ps with
  | t :: ts', p :: ps' => do f <- decoder z look t p; do fs <- decoders z look ts' ps'; Ok (f :: fs)
  | _, _ => Ok []
  end.
(** 303-351 getInputStream: the filters to be applied to the stored data (none: it is read as it is), the media filters
    that are left and their parameters. Where several errors are possible another one than that of the code may be given. *)
Definition open_stream (z : zlib) (look : Z * Z -> option obj) (raw : bool) (s : sobj) : res (list filt * list ftype * list (option dict)) :=
  if raw || match sfilters s with [] => true | _ => false end then Ok ([], [], [])
  else
    do ps <- parms look (sdict s) (length (sfilters s));
    do (ts, media) <- strip_media (sfilters s);
    do fs <- decoders z look ts (firstn (length ts) ps);
    Ok (fs, media, match media with [] => [] | _ => skipn (length ts) ps end).
(** PdfInputStream.cpp:70-83 CopyTo: blocks of 4096 bytes, here at most [n] of them; memory streams and filters *)
Definition copy_from (n : nat) (fs : list filt) (data : list Z) : res (list Z) :=
  match fs with
  | [] => Ok data
  | _ => do (o, e) <- decode_read fs data (repeat 4096%nat n); if e : bool then Ok o else Fuel
  end.
(** 71-81 CopyTo, 93-99 GetCopy *)
Definition read_stream (z : zlib) (look : Z * Z -> option obj) (n : nat) (raw : bool) (s : sobj) : res (list Z) :=
  do x <- open_stream z look raw s;
  let '(fs, media, _) := x in
  match media with [] => copy_from n fs (sdata s) | _ => Err EUnsupportedFilter end.
(** 83-90 CopyToSafe, 101-107 GetCopySafe *)
Definition read_safe (z : zlib) (look : Z * Z -> option obj) (n : nat) (s : sobj) : res (list Z) :=
  do x <- open_stream z look false s;
  let '(fs, _, _) := x in copy_from n fs (sdata s).

(** ** Writing *)

(** FilterToName, PdfDeclarationsPrivate.cpp:400-427 *)
Definition filter_name (t : ftype) : list Z :=
  match t with
  | FHex => bs "ASCIIHexDecode" | F85 => bs "ASCII85Decode" | FLzw => bs "LZWDecode" | FFlate => bs "FlateDecode"
  | FRle => bs "RunLengthDecode" | FCcitt => bs "CCITTFaxDecode" | FJbig2 => bs "JBIG2Decode" | FDct => bs "DCTDecode"
  | FJpx => bs "JPXDecode" | FCrypt => bs "Crypt"
  end.
(** 426-455, ~PdfObjectOutputStream: /Filter of the parent *)
Definition set_filter (ts : list ftype) (d : dict) : dict :=
  match ts with
  | [] => erase_key (bs "Filter") d
  | [t] => dict_add (bs "Filter") (OName (filter_name t)) d
  | _ => dict_add (bs "Filter") (OArr (map (fun t => OName (filter_name t)) ts)) d
  end.
(** PdfFilter.cpp:285-301 and 24-34: the encoders; those before the first one that does not exist *)
Fixpoint encoders (z : zlib) (ts : list ftype) : list filt * bool :=
  match ts with
  | [] => ([], true)
  | t :: r =>
    match filter_encoder (zenc z) t with
    | None => ([], false)
    | Some f => let '(fs, ok) := encoders z r in (f :: fs, ok)
    end
  end.
(** Data given in blocks to the filters; the buffer afterwards *)
Definition encoded (fs : list filt) (blocks : list (list Z)) : res (list Z) := do w <- chain_run (encode_stack fs) blocks; Ok (concat w).
(** 476-507 the constructor of PdfObjectOutputStream without append, writing and 426-455; 353-367 setData. The buffer is
    cleared before the filters are created (PdfMemoryObjectStream.cpp:58-63); if one of them cannot be, those created so far
    are ended while the exception leaves, and put their end into the buffer. *)
Definition set_data (z : zlib) (ts : list ftype) (blocks : list (list Z)) (s : sobj) : res unit * sobj :=
  match encoders z ts with
  | (fs, true) =>
    match encoded fs blocks with
    | Ok b => (Ok tt, mk_sobj (set_filter ts (sdict s)) b ts)
    | Err e => (Err e, mk_sobj (set_filter ts (sdict s)) [] ts)
    | UB => (UB, s) | Fuel => (Fuel, s)
    end
  | (fs, false) =>
    match encoded fs [] with
    | Ok b => (Err EUnsupportedFilter, mk_sobj (sdict s) b (sfilters s))
    | Err e => (Err e, mk_sobj (sdict s) [] (sfilters s))
    | UB => (UB, s) | Fuel => (Fuel, s)
    end
  end.
(** 488-492 and 506-507: with append, what CopyTo gives is written first *)
Definition append_data (z : zlib) (look : Z * Z -> option obj) (n : nat) (ts : list ftype) (blocks : list (list Z)) (s : sobj) : res unit * sobj :=
  match read_stream z look n false s with
  | Ok old => set_data z ts (match old with [] => blocks | _ => old :: blocks end) s
  | Err e => (Err e, s) | UB => (UB, s) | Fuel => (Fuel, s)
  end.

(** ** Copying and moving *)

(** 209-236: an entry taken over from [from], references being followed *)
Definition take_key (look : Z * Z -> option obj) (k : list Z) (from to : dict) : dict :=
  match dict_find look k from with None => erase_key k to | Some v => dict_add k v to end.
(** 240-266 CopyFrom; both in the same document *)
Definition copy_stream (look : Z * Z -> option obj) (lhs rhs : sobj) : sobj :=
  mk_sobj (take_key look (bs "DecodeParms") (sdict rhs) (take_key look (bs "Filter") (sdict rhs) (sdict lhs))) (sdata rhs) (sfilters rhs).
(** 214-222: an entry that leaves the other dictionary *)
Definition drop_key (look : Z * Z -> option obj) (k : list Z) (d : dict) : dict :=
  match dict_find look k d with None => d | Some _ => erase_key k d end.
(** 201-238 MoveFrom: (this, rhs) afterwards. A buffer or vector that was moved from is empty. *)
Definition move_stream (look : Z * Z -> option obj) (lhs rhs : sobj) : sobj * sobj :=
  (copy_stream look lhs rhs, mk_sobj (drop_key look (bs "DecodeParms") (drop_key look (bs "Filter") (sdict rhs))) [] []).
(** 109-170 Unwrap. The raw output stream lives until the end of the block and then removes /Filter from the temporary
    object (430-433), also where it has been set for media filters at 132-141. The parameters of media filters are copied
    (an indirect dictionary would be referred to). *)
Definition unwrap_parms (media : list ftype) (ps : list (option dict)) (d : dict) : dict :=
  match media, ps with
  | [], _ => d
  | [_], Some p :: _ => dict_add (bs "DecodeParms") (ODict p) d
  | [_], _ => d
  | _, _ => dict_add (bs "DecodeParms") (OArr (map (fun p => match p with Some x => ODict x | None => ONull end) ps)) d
  end.
Definition unwrap_stream (z : zlib) (look : Z * Z -> option obj) (n : nat) (s : sobj) : res unit * sobj :=
  match sfilters s with
  | [] => (Ok tt, s)
  | _ =>
    match open_stream z look false s with
    | Ok (fs, media, ps) =>
      match sfilters s, media with
      | [_], [_] => (Ok tt, s)
      | _, _ =>
        match copy_from n fs (sdata s) with
        | Ok b =>
          let d := set_filter media [] in
          let tmp := mk_sobj (set_filter [] (unwrap_parms media ps d)) b [] in
          (Ok tt, fst (move_stream (fun _ => None) s tmp))
        | Err e => (Err e, s) | UB => (UB, s) | Fuel => (Fuel, s)
        end
      end
    | Err e => (Err e, s) | UB => (UB, s) | Fuel => (Fuel, s)
    end
  end.

(** ** Writing the object *)

(** PdfMemoryObjectStream.cpp:65-82 without encryption *)
Definition stream_text (data : list Z) : list Z := bs "stream" ++ [10] ++ data ++ [10] ++ bs "endstream" ++ [10].
(** PdfObject.cpp:236-260: [flate] is false with NoFlateCompress or for the metadata object. The data is compressed into a
    temporary stream; then MoveFrom of that one is called with the stream of the object. *)
Definition compress_step (z : zlib) (look : Z * Z -> option obj) (flate : bool) (n : nat) (s : sobj) : res unit * sobj :=
  if flate && match sfilters s with [] => true | _ => false end then
    match read_stream z look n false s with
    | Ok b =>
      let '(r, tmp) := set_data z [FFlate] [b] (mk_sobj [] [] []) in
      match r with
      | Ok _ => (Ok tt, snd (move_stream look tmp s))
      | r => (r, s)
      end
    | Err e => (Err e, s) | UB => (UB, s) | Fuel => (Fuel, s)
    end
  else (Ok tt, s).
(** 209-283 Write of an indirect object with stream: what is written, and the stream afterwards *)
Definition write_stream (z : zlib) (look : Z * Z -> option obj) (fl : wflags) (tight flate : bool) (n : nat) (r : ref) (s : sobj) : res (list Z) * sobj :=
  match compress_step z look flate n s with
  | (Ok _, s1) =>
    let s2 := mk_sobj (dict_add (bs "Length") (ONum (Z.of_nat (length (sdata s1)))) (sdict s1)) (sdata s1) (sfilters s1) in
    (do t <- write fl (ODict (sdict s2));
     Ok (dec (fst r) ++ [32] ++ dec (snd r) ++ bs " obj" ++ (if tight then [] else [10]) ++ t ++ [10] ++ stream_text (sdata s2) ++ bs "endobj" ++ [10]),
     s2)
  | (Err e, s1) => (Err e, s1)
  | (UB, s1) => (UB, s1)
  | (Fuel, s1) => (Fuel, s1)
  end.

(** ** Loading *)

(** [load_object] of UpdateModel with the position behind the keyword "stream", m_StreamOffset; what has been read ahead by
    the tokenizer is behind that position *)
Definition load_parts (file : list Z) (off : Z) : res (ref * obj * option (list Z)) :=
  match next_number 4095 (mk_tst [] (skipn (Z.to_nat off) file)) with
  | (Ok n, s1) =>
    match next_number 4095 s1 with
    | (Ok g, s2) =>
      let r := (u32 n, u16 g) in
      match next_token 4095 s2 with
      | None => Err EUnexpectedEOF
      | Some (t, s3) =>
        if beq (snd t) (bs "obj") then
          match next_token 4095 s3 with
          | None => Err EUnexpectedEOF
          | Some (t', s4) =>
            if beq (snd t') (bs "endobj") then Ok (r, ONull, None)
            else
              do (v, s5) <- read_variant default_params (3 * length (tin s3) + 3) 0 t' s4;
              match v with
              | None => Err EInvalidDataType
              | Some o =>
                match next_token 4095 s5 with
                | None => Err EUnexpectedEOF
                | Some (e, s6) =>
                  if beq (snd e) (bs "endobj") then Ok (r, o, None)
                  else match o with
                       | ODict _ => if beq (snd e) (bs "stream") then Ok (r, o, Some (tin s6)) else Err ENoObject
                       | _ => Err ENoObject
                       end
                end
              end
          end
        else Err ENoObject
      end
    | (Err e, _) => Err e | (UB, _) => UB | (Fuel, _) => Fuel
    end
  | (Err e, _) => Err e | (UB, _) => UB | (Fuel, _) => Fuel
  end.
(** PdfParserObject.cpp:172-218: the start of the data *)
Fixpoint data_start (l : list Z) : res (list Z) :=
  match l with
  | [] => Err EUnexpectedEOF
  | c :: r =>
    if (c =? 32) || (c =? 9) then data_start r
    else if c =? 13 then match r with [] => Err EUnexpectedEOF | d :: r' => Ok (if d =? 10 then r' else l) end
    else if c =? 10 then Ok r
    else Ok l
  end.
(** 161-246 parseStream without encryption; 369-374 InitData copies at most the given number of bytes, and all there are if
    the number is negative (it is passed as size_t) *)
Definition load_data (look : Z * Z -> option obj) (d : dict) (rest : list Z) : res sobj :=
  match dict_find look (bs "Length") d with
  | None => Err ENoObject
  | Some (ONum size) =>
    do body <- data_start rest;
    do ts <- create_filter_list look (ODict d);
    Ok (mk_sobj d (if size <? 0 then body else firstn (Z.to_nat size) body) ts)
  | Some _ => Err EInvalidStreamLength
  end.
(** An object with its stream *)
Definition load_stream (look : Z * Z -> option obj) (file : list Z) (off : Z) : res (ref * sobj) :=
  do x <- load_parts file off;
  match x with
  | (r, ODict d, Some rest) => do s <- load_data look d rest; Ok (r, s)
  | _ => Err EInvalidHandle
  end.

(** ** Object streams *)

(** PdfObjectStreamParser.cpp:45-90 readObjectsFromStream: [k] objects are left, [s] is the tokenizer of the table (the
    device is moved back behind what it has read), [want] the numbers asked for. Seek: PdfStreamDevice.cpp:92-139, the sum
    as ssize_t is not negative there as it is below 2^63 - 1. *)
Fixpoint read_members (k : nat) (data : list Z) (first : Z) (want : list Z) (s : tst) : res (list (ref * obj)) :=
  match k with
  | O => Ok []
  | S k' =>
    match next_number 4095 s with
    | (Ok n, s1) =>
      match next_number 4095 s1 with
      | (Ok off, s2) =>
        if negb (int64_ok (2 ^ 63 - 1 - off)) then UB
        else if 2 ^ 63 - 1 - off <=? first then Err EBrokenFile
        else if negb (int64_ok (first + off)) then UB
        else if first + off <? 0 then Err EInvalidDeviceOperation
        else if Z.of_nat (length data) <? first + off then Err EValueOutOfRange
        else
          let body := skipn (Z.to_nat (first + off)) data in
          match read_next default_params (3 * length body + 3) 0 (mk_tst [] body) with
          | Ok (Some v, _) =>
            do r <- read_members k' data first want s2;
            Ok (if existsb (Z.eqb n) want then ((u32 n, 0), v) :: r else r)
          | Ok (None, _) => Err EInvalidDataType
          | Err e => Err e | UB => UB | Fuel => Fuel
          end
      | (Err e, _) => Err e | (UB, _) => UB | (Fuel, _) => Fuel
      end
    | (Err e, _) => Err e | (UB, _) => UB | (Fuel, _) => Fuel
    end
  end.
(** 31-43 Parse, the data of the stream being [data]; [num] is compared with a counter of type int *)
Definition object_stream (look : Z * Z -> option obj) (d : dict) (data : list Z) (want : list Z) : res (list (ref * obj)) :=
  do num <- parm look d (bs "N") 0;
  do first <- parm look d (bs "First") 0;
  read_members (Z.to_nat num) data first want (mk_tst [] data).
