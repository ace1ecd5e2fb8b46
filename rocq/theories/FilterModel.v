(** Model of the stream filters: private/PdfFiltersPrivate.cpp (ASCIIHex, ASCII85, RunLength, LZW, the
    PNG/TIFF predictors) and the filter chains of base/PdfFilter.cpp. FlateDecode is zlib and not
    modelled (it appears as an arbitrary filter in the chain theorems).

    A filter is a state machine: BeginXxx gives the first state, XxxBlock consumes one block and
    issues a list of writes to the output stream, EndXxx issues the last writes. *)
From Coq Require Import String.
From Verif Require Import Base TokModel WriteModel.
Local Open Scope Z_scope.

(** base/PdfFilter.h:33-210: the interface, once per direction. [f_begin] is BeginEncode/BeginDecode,
    [f_block] EncodeBlock/DecodeBlock, [f_end] EndEncode/EndDecode. The writes of a call are listed in
    order; a failed call's writes are dropped (the code leaves them in the output). *)
Record filt := mk_filt {
  f_st : Type;
  f_begin : res f_st;
  f_block : f_st -> list Z -> res (f_st * list (list Z));
  f_end : f_st -> res (list (list Z)) }.

(** All blocks after another *)
Fixpoint f_blocks (f : filt) (s : f_st f) (bl : list (list Z)) : res (f_st f * list (list Z)) :=
  match bl with
  | [] => Ok (s, [])
  | b :: r => do (s1, w1) <- f_block f s b; do (s2, w2) <- f_blocks f s1 r; Ok (s2, w1 ++ w2)
  end.
(** PdfFilter.cpp:216-221 encodeTo / 241-246 decodeTo, with the data in any number of blocks *)
Definition f_run (f : filt) (bl : list (list Z)) : res (list (list Z)) :=
  do s <- f_begin f; do (s1, w) <- f_blocks f s bl; do w' <- f_end f s1; Ok (w ++ w').

(** ** ASCIIHex *)

(** PdfFiltersPrivate.cpp:230-239 PdfHexFilter::EncodeBlockImpl *)
Definition hex_encode_block (b : list Z) : list (list Z) := map hex_byte b.
Definition hex_enc : filt := mk_filt unit (Ok tt) (fun _ b => Ok (tt, hex_encode_block b)) (fun _ => Ok []).

(** PdfDeclarationsPrivate.cpp:666-725 TryGetHexValue: 0 for anything but a digit *)
Definition hex_or_0 (c : Z) : Z := match hex_val c with Some v => v | None => 0 end.

(** PdfFiltersPrivate.cpp:247-274 PdfHexFilter::DecodeBlockImpl; the state is (m_DecodedByte, m_Low).
    m_DecodedByte is 0..15 whenever it is shifted. *)
Fixpoint hex_decode_block (s : Z * bool) (b : list Z) : (Z * bool) * list (list Z) :=
  match b with
  | [] => (s, [])
  | c :: r =>
    if is_ws c then hex_decode_block s r
    else if snd s then hex_decode_block (Z.land (hex_or_0 c) 15, false) r
    else let d := u8 (Z.lor (Z.shiftl (fst s) 4) (hex_or_0 c)) in
         let '(s', w) := hex_decode_block (d, true) r in (s', [d] :: w)
  end.
(** PdfFiltersPrivate.cpp:241-245 BeginDecodeImpl, 276-284 EndDecodeImpl *)
Definition hex_dec : filt :=
  mk_filt (Z * bool) (Ok (0, true)) (fun s b => Ok (hex_decode_block s b))
    (fun s => Ok (if snd s then [] else [[fst s]])).

(** ** ASCII85 *)

(** PdfFiltersPrivate.cpp:21 s_Powers85; an index outside the table is undefined behaviour, and never
    reached as m_count stays below 5. *)
Definition powers85 : list Z := [52200625; 614125; 7225; 85; 1].
Definition pow85 (i : Z) : Z := nth (Z.to_nat i) powers85 0.

(** PdfFiltersPrivate.cpp:300-321 EncodeTuple, first loop: the five base-85 digits, least significant
    first *)
Fixpoint digits85 (n : nat) (t : Z) : list Z :=
  match n with O => [] | S n' => t mod 85 :: digits85 n' (t / 85) end.
(** second loop: [count + 1] of them, most significant first, plus '!' *)
Definition encode_tuple (t count : Z) : list Z :=
  map (fun d => d + 33) (firstn (Z.to_nat count + 1) (rev (digits85 5 t))).

(** PdfFiltersPrivate.cpp:329-359 EncodeBlockImpl; the state is (m_count, m_tuple) *)
Fixpoint a85_encode_block (s : Z * Z) (b : list Z) : (Z * Z) * list (list Z) :=
  match b with
  | [] => (s, [])
  | c :: r =>
    let '(n, t) := s in
    if n =? 0 then a85_encode_block (1, Z.lor t (Z.shiftl c 24)) r
    else if n =? 1 then a85_encode_block (2, Z.lor t (Z.shiftl c 16)) r
    else if n =? 2 then a85_encode_block (3, Z.lor t (Z.shiftl c 8)) r
    else if n =? 3 then
      let t' := Z.lor t c in
      let w := if t' =? 0 then [122] else encode_tuple t' 4 in
      let '(s', ws) := a85_encode_block (0, 0) r in (s', w :: ws)
    else a85_encode_block (n + 1, t) r
  end.
(** PdfFiltersPrivate.cpp:323-327 BeginEncodeImpl, 361-366 EndEncodeImpl: no "~>" is written *)
Definition a85_enc : filt :=
  mk_filt (Z * Z) (Ok (0, 0)) (fun s b => Ok (a85_encode_block s b))
    (fun s => Ok (if 0 <? fst s then [encode_tuple (snd s) (fst s)] else [])).

(** PdfFiltersPrivate.cpp:432-459 WidePut: the leading [n] bytes of the tuple *)
Definition wide_put (t n : Z) : list Z :=
  firstn (Z.to_nat n) [u8 (t / 2 ^ 24); u8 (t / 2 ^ 16); u8 (t / 2 ^ 8); u8 t].

(** White space and control characters skipped by the decoder, lines 411-413 *)
Definition a85_skip (c : Z) : bool :=
  (c =? 10) || (c =? 13) || (c =? 9) || (c =? 32) || (c =? 0) || (c =? 12) || (c =? 8) || (c =? 127).

(** PdfFiltersPrivate.cpp:374-420 DecodeBlockImpl; the state is (m_count, m_tuple), m_tuple a 32-bit
    unsigned. '~' is 126, 'z' 122. After "~" the rest of the block is dropped; nothing remembers it for
    the next block. *)
Fixpoint a85_decode_block (s : Z * Z) (b : list Z) : res ((Z * Z) * list (list Z)) :=
  match b with
  | [] => Ok (s, [])
  | c :: r =>
    let '(n, t) := s in
    if c =? 122 then
      if n =? 0 then do (s', w) <- a85_decode_block s r; Ok (s', wide_put 0 4 :: w)
      else Err EValueOutOfRange
    else if c =? 126 then
      match r with
      | [] => Ok (s, [])
      | d :: _ => if d =? 62 then Ok (s, []) else Err EValueOutOfRange
      end
    else if a85_skip c then a85_decode_block s r
    else if (schar c <? 33) || (117 <? schar c) then Err EValueOutOfRange
    else
      let t' := u32 (t + (c - 33) * pow85 n) in
      if n + 1 =? 5 then do (s', w) <- a85_decode_block (0, 0) r; Ok (s', wide_put t' 4 :: w)
      else a85_decode_block (n + 1, t') r
  end.
(** PdfFiltersPrivate.cpp:368-372 BeginDecodeImpl, 422-430 EndDecodeImpl *)
Definition a85_end (s : Z * Z) : list (list Z) :=
  let '(n, t) := s in
  if 0 <? n then [wide_put (u32 (t + pow85 (n - 1))) (n - 1)] else [].
Definition a85_dec : filt := mk_filt (Z * Z) (Ok (0, 0)) a85_decode_block (fun s => Ok (a85_end s)).

(** ** RunLength *)

(** PdfFiltersPrivate.cpp:623-650 DecodeBlockImpl; the state is m_CodeLen. The count byte is read as a
    signed char. A code length of 129 or more would write the byte 257 - n times; [while (m_CodeLen--)]
    leaves -1. *)
Fixpoint rle_decode_block (n : Z) (b : list Z) : Z * list (list Z) :=
  match b with
  | [] => (n, [])
  | c :: r =>
    if n =? 0 then rle_decode_block (schar c) r
    else if n =? 128 then (n, [])
    else if n <=? 127 then let '(n', w) := rle_decode_block (n - 1) r in (n', [c] :: w)
    else let '(n', w) := rle_decode_block (-1) r in (n', repeat [c] (Z.to_nat (257 - n)) ++ w)
  end.
(** PdfFiltersPrivate.cpp:618-621 BeginDecodeImpl; EndDecodeImpl does nothing *)
Definition rle_dec : filt := mk_filt Z (Ok 0) (fun s b => Ok (rle_decode_block s b)) (fun _ => Ok []).

(** ** LZW *)

(** PdfFiltersPrivate.cpp:797-814 InitTable: one entry per byte and an empty dummy *)
Definition lzw_init_table : list (list Z) := map (fun i => [Z.of_nat i]) (seq 0 256) ++ [[]].

(** Members of PdfLZWFilter that survive between blocks *)
Record lzw := mk_lzw { lz_mask : Z; lz_len : Z; lz_char : Z; lz_first : bool; lz_table : list (list Z) }.

(** PdfFiltersPrivate.cpp:656 s_masks *)
Definition lzw_masks : list Z := [511; 1023; 2047; 4095].

(** One code, PdfFiltersPrivate.cpp:731-787. [old] is the previous code of this block. The table entry
    of a valid index is taken with [nth]; a data string is empty only for the dummy entry 256, which no
    code reaches (256 is the clear code), except through [old]; [data[0]] of an empty string is UB. *)
Inductive lzw_next := LzStop | LzGo (s : lzw) (old : Z) (w : list (list Z)).
Definition lzw_code (s : lzw) (old code : Z) : res lzw_next :=
  if code =? 256 then Ok (LzGo (mk_lzw 0 9 (lz_char s) (lz_first s) lzw_init_table) old [])
  else if code =? 257 then Ok LzStop
  else
    let size := Z.of_nat (length (lz_table s)) in
    do data <- (if size <=? code then
                  if size <=? old then Err EValueOutOfRange
                  else Ok (nth (Z.to_nat old) (lz_table s) [] ++ [lz_char s])
                else Ok (nth (Z.to_nat code) (lz_table s) []));
    match data with
    | [] => UB
    | ch :: _ =>
      let entry := (if old <? size then nth (Z.to_nat old) (lz_table s) [] else data) ++ [ch] in
      let table' := lz_table s ++ [entry] in
      let size' := Z.of_nat (length table') in
      let grow := (size' =? 511) || (size' =? 1023) || (size' =? 2047) in
      Ok (LzGo (mk_lzw (if grow then lz_mask s + 1 else lz_mask s) (if grow then lz_len s + 1 else lz_len s)
                       ch (lz_first s) table') code [data])
    end.

(** PdfFiltersPrivate.cpp:729-788, the inner loop [while (buffer_size >= m_code_len)]. Returns [None]
    for the buffer when the end-of-data code was met. The fuel is [buffer_size]. *)
Fixpoint lzw_codes (fuel : nat) (s : lzw) (old size buff : Z) : res (lzw * Z * option Z * list (list Z)) :=
  match fuel with
  | O => Ok (s, old, Some size, [])
  | S f =>
    if size <? lz_len s then Ok (s, old, Some size, [])
    else
      let code := Z.land (Z.shiftr buff (size - lz_len s)) (nth (Z.to_nat (lz_mask s)) lzw_masks 0) in
      do n <- lzw_code s old code;
      match n with
      | LzStop => Ok (s, old, None, [])
      | LzGo s1 old1 w1 =>
        do r <- lzw_codes f s1 old1 (size - lz_len s) buff;
        let '(s2, old2, sz, w2) := r in Ok (s2, old2, sz, w1 ++ w2)
      end
  end.

(** PdfFiltersPrivate.cpp:717-726, filling the 24-bit buffer (kept in 32 bits) *)
Fixpoint lzw_fill (size buff : Z) (b : list Z) : Z * Z * list Z :=
  match b with
  | [] => (size, buff, [])
  | c :: r => if size <=? 16 then lzw_fill (size + 8) (u32 (Z.lor (Z.shiftl buff 8) c)) r else (size, buff, b)
  end.

(** PdfFiltersPrivate.cpp:715-789, the outer loop. Every iteration takes at least one byte as
    m_code_len <= 12 < 16; the fuel is the number of bytes. *)
Fixpoint lzw_loop (fuel : nat) (s : lzw) (old size buff : Z) (b : list Z) : res (lzw * list (list Z)) :=
  match b with
  | [] => Ok (s, [])
  | _ =>
    match fuel with
    | O => Fuel
    | S f =>
      let '(size1, buff1, b1) := lzw_fill size buff b in
      do r <- lzw_codes (Z.to_nat size1) s old size1 buff1;
      let '(s1, old1, sz, w1) := r in
      match sz with
      | None => Ok (s1, w1)
      | Some size2 => do (s2, w2) <- lzw_loop f s1 old1 size2 buff1 b1; Ok (s2, w1 ++ w2)
      end
    end
  end.

(** PdfFiltersPrivate.cpp:697-790 DecodeBlockImpl; buffer, bit count and [old] are locals *)
Definition lzw_decode_block (s : lzw) (b : list Z) : res (lzw * list (list Z)) :=
  let s1 := if lz_first s
            then mk_lzw (lz_mask s) (lz_len s) (nth 0 b 0) false (lz_table s) else s in
  lzw_loop (length b) s1 0 0 0 b.
(** PdfFiltersPrivate.cpp:683-695 BeginDecodeImpl without decode parameters *)
Definition lzw_begin : lzw := mk_lzw 0 9 0 true lzw_init_table.
Definition lzw_dec : filt := mk_filt lzw (Ok lzw_begin) lzw_decode_block (fun _ => Ok []).

(** ** Predictors *)

(** PdfFiltersPrivate.cpp:198-218, members of PdfPredictorDecoder; m_EarlyChange is never used *)
Record pred := mk_pred {
  p_pred : Z; p_bpc : Z; p_bpp : Z; p_rows : Z;
  p_cur : Z; p_idx : Z; p_next : bool; p_prev : list Z; p_ul : list Z }.

(** [static_cast<int>] of an int64_t *)
Definition to_int (z : Z) : Z := let m := z mod 2 ^ 32 in if m <? 2 ^ 31 then m else m - 2 ^ 32.
Definition int_ok (z : Z) : bool := (- 2 ^ 31 <=? z) && (z <? 2 ^ 31).

(** PdfFiltersPrivate.cpp:32-77, the constructor, given the values found in the dictionary. The products
    are computed in [int] before the overflow test at 63-68 is reached; overflowing there is UB. The test
    itself (on size_t) never fires for products that fit [int]. *)
Definition pred_new (predictor colors bpc columns : Z) : res pred :=
  let predictor := to_int predictor in let colors := to_int colors in
  let bpc := to_int bpc in let columns := to_int columns in
  if (columns <? 1) || (colors <? 1) || (bpc <? 1) then Err EValueOutOfRange
  else if negb (int_ok (bpc * colors) && int_ok (columns * colors) && int_ok (columns * colors * bpc)) then UB
  else
    let bpp := Z.shiftr (bpc * colors) 3 in
    let rows := Z.shiftr (columns * colors * bpc) 3 in
    if rows <? 1 then Err EValueOutOfRange
    else Ok (mk_pred predictor bpc bpp rows (if 10 <=? predictor then -1 else predictor) 0 (10 <=? predictor)
                     (repeat 0 (Z.to_nat rows)) (repeat 0 (Z.to_nat bpp))).

(** Storing into a charbuff; indices are in range whenever it is called. *)
Fixpoint set_nth (i : nat) (v : Z) (l : list Z) : list Z :=
  match l, i with
  | [], _ => []
  | _ :: r, O => v :: r
  | x :: r, S i' => x :: set_nth i' v r
  end.
Definition zget (l : list Z) (i : Z) : Z := nth (Z.to_nat i) l 0.
Definition zset (l : list Z) (i v : Z) : list Z := set_nth (Z.to_nat i) v l.

(** Left neighbour: 0 in the first pixel, else the byte one pixel back. With bpp = 0 that is the byte
    itself. *)
Definition p_left (p : pred) : Z := if p_idx p - p_bpp p <? 0 then 0 else zget (p_prev p) (p_idx p - p_bpp p).

(** PdfFiltersPrivate.cpp:146-166: the closest of left, up and upper left *)
Definition paeth_close (a b c : Z) : Z :=
  let p := a + b - c in
  let pa := Z.abs (p - a) in let pb := Z.abs (p - b) in let pc := Z.abs (p - c) in
  if (pa <=? pb) && (pa <=? pc) then a else if pb <=? pc then b else c.

(** PdfFiltersPrivate.cpp:96-182: one data byte. Char arithmetic promotes to signed int and is cut to 8
    bits when stored. Returns the new m_Prev and m_UpperLeftPixelComponents. *)
Definition pred_byte (p : pred) (c : Z) : res (list Z * list Z) :=
  let i := p_idx p in let up := zget (p_prev p) i in
  if p_cur p =? 2 then
    if p_bpc p =? 8 then Ok (zset (p_prev p) i (u8 (schar c + schar (p_left p))), p_ul p)
    else Err EInvalidPredictor
  else if p_cur p =? 10 then Ok (zset (p_prev p) i c, p_ul p)
  else if p_cur p =? 11 then Ok (zset (p_prev p) i (u8 (schar c + schar (p_left p))), p_ul p)
  else if p_cur p =? 12 then Ok (zset (p_prev p) i (u8 (schar up + schar c)), p_ul p)
  else if p_cur p =? 13 then
    Ok (zset (p_prev p) i (u8 (Z.shiftr (schar (p_left p) + schar up) 1 + schar c)), p_ul p)
  else if p_cur p =? 14 then
    if p_bpp p =? 0 then UB
    else
      let k := i mod p_bpp p in
      let cc := if i - p_bpp p <? 0 then 0 else zget (p_ul p) k in
      Ok (zset (p_prev p) i (u8 (schar c + schar (paeth_close (p_left p) up cc))), zset (p_ul p) k up)
  else if p_cur p =? 15 then Err EInvalidPredictor
  else Ok (p_prev p, p_ul p).

(** PdfFiltersPrivate.cpp:87-197: the loop over the bytes of a block *)
Definition pred_row_end (p : pred) : pred * list (list Z) :=
  if p_rows p <=? p_idx p
  then (mk_pred (p_pred p) (p_bpc p) (p_bpp p) (p_rows p) (p_cur p) 0 (10 <=? p_cur p) (p_prev p) (p_ul p),
        [p_prev p])
  else (p, []).
Definition pred_step (p : pred) (c : Z) : res (pred * list (list Z)) :=
  if p_next p then
    Ok (pred_row_end (mk_pred (p_pred p) (p_bpc p) (p_bpp p) (p_rows p) (schar c + 10) (p_idx p) false (p_prev p) (p_ul p)))
  else
    do (pv, ul) <- pred_byte p c;
    Ok (pred_row_end (mk_pred (p_pred p) (p_bpc p) (p_bpp p) (p_rows p) (p_cur p) (p_idx p + 1) false pv ul)).
Fixpoint pred_bytes (p : pred) (b : list Z) : res (pred * list (list Z)) :=
  match b with
  | [] => Ok (p, [])
  | c :: r => do (p1, w1) <- pred_step p c; do (p2, w2) <- pred_bytes p1 r; Ok (p2, w1 ++ w2)
  end.
(** PdfFiltersPrivate.cpp:81-85: predictor 1 copies *)
Definition pred_block (p : pred) (b : list Z) : res (pred * list (list Z)) :=
  if p_pred p =? 1 then Ok (p, [b]) else pred_bytes p b.
(** A filter in its own right: the predictor as applied to the output of Flate or LZW *)
Definition pred_dec (predictor colors bpc columns : Z) : filt :=
  mk_filt pred (pred_new predictor colors bpc columns) pred_block (fun _ => Ok []).

(** ** Chains *)

(** Streams stacked on each other, the one written to first at the head; the writes of a filter go to the
    next one, those of the last are the result (PdfFilter.cpp:20-49 PdfFilteredEncodeStream, 52-117
    PdfFilteredDecodeStream). The state of a chain is the states of its filters. *)
Fixpoint chain_st (fs : list filt) : Type :=
  match fs with [] => unit | f :: r => (f_st f * chain_st r)%type end.

Fixpoint chain_begin (fs : list filt) : res (chain_st fs) :=
  match fs with
  | [] => Ok tt
  | f :: r => do n <- chain_begin r; do s <- f_begin f; Ok (s, n)
  end.

Definition push_all {S} (push : S -> list Z -> res (S * list (list Z))) :=
  fix go (s : S) (ws : list (list Z)) : res (S * list (list Z)) :=
    match ws with
    | [] => Ok (s, [])
    | x :: r => do (s1, o1) <- push s x; do (s2, o2) <- go s1 r; Ok (s2, o1 ++ o2)
    end.

(** OutputStream::Write (PdfOutputStream.cpp:17-41) with [f_block] as writeBuffer: an empty block is not
    passed on. *)
Fixpoint chain_push (fs : list filt) : chain_st fs -> list Z -> res (chain_st fs * list (list Z)) :=
  match fs with
  | [] => fun s b => Ok (s, [b])
  | f :: r => fun s b =>
    match b with
    | [] => Ok (s, [])
    | _ =>
      do (s1, w) <- f_block f (fst s) b;
      do (n1, out) <- push_all (chain_push r) (snd s) w;
      Ok ((s1, n1), out)
    end
  end.

(** EndEncode/EndDecode of the first filter, then of the next one: PdfFilter.cpp:31-34 and 394-411 (the
    destructor of a stream ends its filter and then releases the next stream), 97-111 and 446-475 (EndDecode
    flushes the next stream, whose flush ends its filter). *)
Fixpoint chain_end (fs : list filt) : chain_st fs -> res (list (list Z)) :=
  match fs with
  | [] => fun _ => Ok []
  | f :: r => fun s =>
    do w <- f_end f (fst s);
    do (n1, o1) <- push_all (chain_push r) (snd s) w;
    do o2 <- chain_end r n1;
    Ok (o1 ++ o2)
  end.

(** The whole data written to a chain in blocks *)
Definition chain_run (fs : list filt) (bl : list (list Z)) : res (list (list Z)) :=
  do s <- chain_begin fs; do (s1, o1) <- push_all (chain_push fs) s bl; do o2 <- chain_end fs s1; Ok (o1 ++ o2).

(** PdfFilter.cpp:285-301 CreateEncodeStream: stacked in the order of the list, so that the last filter
    is written to first. *)
Definition encode_stack (fs : list filt) : list filt := fold_left (fun st f => f :: st) fs [].
(** PdfFilter.cpp:123-137: stacked from the last filter to the first *)
Definition decode_stack (fs : list filt) : list filt := fold_left (fun st f => f :: st) (rev fs) [].

(** PdfFilter.cpp:119-179 PdfBufferedDecodeStream over a memory stream (PdfStreamDevice.cpp:577-584
    readBuffer: [min size remaining] bytes, eof when none remain). *)
Record bstream (fs : list filt) := mk_bs {
  bs_pending : list Z;  (* m_buffer from m_offset on *)
  bs_eof : bool;        (* m_inputEof *)
  bs_in : list Z;       (* bytes left in m_inputStream *)
  bs_st : chain_st fs }.
Arguments mk_bs {fs}. Arguments bs_pending {fs}. Arguments bs_eof {fs}. Arguments bs_in {fs}. Arguments bs_st {fs}.

(** PdfFilter.cpp:139-167 readBuffer: the bytes returned and the eof flag. The state after the flush is of
    no further use and kept. *)
Definition bread {fs} (st : bstream fs) (size : nat) : res (bstream fs * list Z * bool) :=
  match bs_pending st with
  | _ :: _ => Ok (mk_bs (skipn size (bs_pending st)) (bs_eof st) (bs_in st) (bs_st st), firstn size (bs_pending st), false)
  | [] =>
    if bs_eof st then Ok (st, [], true)
    else
      let blk := firstn size (bs_in st) in let rest := skipn size (bs_in st) in
      let eof := match rest with [] => true | _ => false end in
      do (c1, w1) <- match blk with [] => Ok (bs_st st, []) | _ => chain_push fs (bs_st st) blk end;
      do w2 <- (if eof then chain_end fs c1 else Ok []);
      let out := concat (w1 ++ w2) in
      Ok (mk_bs (skipn size out) eof rest c1, firstn size out, false)
  end.

(** Reads of the given sizes, up to the one that reports eof. *)
Fixpoint breads {fs} (st : bstream fs) (sizes : list nat) : res (list Z * bool) :=
  match sizes with
  | [] => Ok ([], false)
  | n :: r =>
    do x <- bread st n;
    let '(st1, out, eof) := x in
    if eof then Ok (out, true)
    else do (out2, e) <- breads st1 r; Ok (out ++ out2, e)
  end.
(** PdfFilter.cpp:303-309 CreateDecodeStream followed by reads *)
Definition decode_read (fs : list filt) (data : list Z) (sizes : list nat) : res (list Z * bool) :=
  match fs with
  | [] => Err EInternalLogic
  | _ =>
    do c <- chain_begin (decode_stack fs);
    breads (mk_bs [] false data c) sizes
  end.

(** ** Filter names *)

Inductive ftype := FHex | F85 | FLzw | FFlate | FRle | FCcitt | FJbig2 | FDct | FJpx | FCrypt.

(** PdfDeclarationsPrivate.cpp:353-377 NameToFilter *)
Definition filter_names : list (list Z * ftype) :=
  [(bs "ASCIIHexDecode", FHex); (bs "ASCII85Decode", F85); (bs "LZWDecode", FLzw); (bs "FlateDecode", FFlate);
   (bs "RunLengthDecode", FRle); (bs "CCITTFaxDecode", FCcitt); (bs "JBIG2Decode", FJbig2);
   (bs "DCTDecode", FDct); (bs "JPXDecode", FJpx); (bs "Crypt", FCrypt)].
Definition name_to_filter (n : list Z) : res ftype :=
  match find (fun p => beq (fst p) n) filter_names with
  | Some p => Ok (snd p)
  | None => Err EUnsupportedFilter
  end.

(** An object as seen through FindKey / GetIndirectIterator: references replaced by their target, once.
    [None] stands for a dangling reference. *)
Definition resolve (heap : Z * Z -> option obj) (o : obj) : option obj :=
  match o with ORef n g => heap (n, g) | _ => Some o end.

(** PdfDictionary.cpp FindKey: the value of a key, references resolved *)
Definition find_key (heap : Z * Z -> option obj) (d : list (list Z * obj)) (k : list Z) : option obj :=
  match find (fun p => beq (fst p) k) d with
  | Some p => resolve heap (snd p)
  | None => None
  end.

(** PdfFilter.cpp:336-345: the elements of a filter array; a dangling element is a null pointer and
    dereferenced at 340. *)
Fixpoint filter_array (heap : Z * Z -> option obj) (l : list obj) : res (list ftype) :=
  match l with
  | [] => Ok []
  | x :: r =>
    match resolve heap x with
    | Some (OName n) => do t <- name_to_filter n; do ts <- filter_array heap r; Ok (t :: ts)
    | Some _ => Err EUnsupportedFilter
    | None => UB
    end
  end.

(** PdfFilter.cpp:311-352 CreateFilterList: the test for an array at 317 can only be reached when the
    object is a dictionary. *)
Definition create_filter_list (heap : Z * Z -> option obj) (o : obj) : res (list ftype) :=
  let key := match o with
             | ODict d => find_key heap d (bs "Filter")
             | OName _ => Some o
             | _ => None
             end in
  match key with
  | None => Ok []
  | Some (OName n) => do t <- name_to_filter n; Ok [t]
  | Some (OArr l) => filter_array heap l
  | Some _ => Err EInvalidDataType
  end.

(** PdfFilter.cpp:252-283 Create; [flate] stands for the zlib filter. Encoding with LZW or RunLength is
    not supported (PdfFiltersPrivate.cpp:603-616, 668-681). *)
Definition filter_encoder (flate : filt) (t : ftype) : option filt :=
  match t with FHex => Some hex_enc | F85 => Some a85_enc | FFlate => Some flate | _ => None end.
Definition filter_decoder (flate : filt) (t : ftype) : option filt :=
  match t with
  | FHex => Some hex_dec | F85 => Some a85_dec | FFlate => Some flate | FLzw => Some lzw_dec | FRle => Some rle_dec
  | _ => None
  end.
