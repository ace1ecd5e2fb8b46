(** Specification vocabulary for the stream filters, written from ISO 32000 7.4 and RFC 2083 and
    independent of the model's helpers. *)
From Coq Require Import String.
From Verif Require Import Base TokModel FilterModel.
Local Open Scope Z_scope.

(** Running a filter over data delivered in blocks gives these bytes. *)
Definition yields (f : filt) (blocks : list (list Z)) (out : list Z) : Prop :=
  exists w, f_run f blocks = Ok w /\ concat w = out.

(** A decoder undoes an encoder, however the data is cut in blocks on either side; the encoded text does
    not depend on the cutting. *)
Definition undoes (dec enc : filt) : Prop :=
  forall data, bytes_ok data ->
  exists text, bytes_ok text /\
    (forall blocks, concat blocks = data -> yields enc blocks text) /\
    (forall blocks, concat blocks = text -> yields dec blocks data).

(** ** ASCIIHex, ISO 32000 7.4.2 *)
(** Two digits per byte, white space between any characters, an odd last digit is followed by an implied
    0, the data ends at '>'. *)
Definition digit_value (c : Z) : option Z :=
  if (48 <=? c) && (c <=? 57) then Some (c - 48)
  else if (65 <=? c) && (c <=? 70) then Some (c - 55)
  else if (97 <=? c) && (c <=? 102) then Some (c - 87) else None.
Definition white (c : Z) : bool := existsb (Z.eqb c) [0; 9; 10; 12; 13; 32].
Inductive hex_encodes : list Z -> list Z -> Prop :=
| hx_eod rest : hex_encodes (62 :: rest) []
| hx_ws c t d : white c = true -> hex_encodes t d -> hex_encodes (c :: t) d
| hx_byte a b ws va vb t d : digit_value a = Some va -> forallb white ws = true -> digit_value b = Some vb ->
    hex_encodes t d -> hex_encodes (a :: ws ++ b :: t) (16 * va + vb :: d)
| hx_odd a va ws rest : digit_value a = Some va -> forallb white ws = true ->
    hex_encodes (a :: ws ++ 62 :: rest) [16 * va].

(** Texts without the end marker and with an even number of digits: what the filter itself produces, with
    white space anywhere. *)
Inductive hex_plain : list Z -> list Z -> Prop :=
| hp_nil : hex_plain [] []
| hp_ws c t d : white c = true -> hex_plain t d -> hex_plain (c :: t) d
| hp_byte a b ws va vb t d : digit_value a = Some va -> forallb white ws = true -> digit_value b = Some vb ->
    hex_plain t d -> hex_plain (a :: ws ++ b :: t) (16 * va + vb :: d).

(** ** ASCII85, ISO 32000 7.4.3 *)
(** The five base-85 digits of a number, most significant first, as characters from '!' *)
Definition five (v : Z) : list Z :=
  [v / 85 ^ 4 + 33; v / 85 ^ 3 mod 85 + 33; v / 85 ^ 2 mod 85 + 33; v / 85 mod 85 + 33; v mod 85 + 33].
Definition big4 (a b c d : Z) : Z := a * 256 ^ 3 + b * 256 ^ 2 + c * 256 + d.
(** Four bytes give five characters, four zero bytes one 'z'; n < 4 bytes at the end, padded with zeroes,
    give the first n + 1 characters. *)
Fixpoint ascii85 (data : list Z) : list Z :=
  match data with
  | a :: b :: c :: d :: r => (if big4 a b c d =? 0 then [122] else five (big4 a b c d)) ++ ascii85 r
  | [] => []
  | [a] => firstn 2 (five (big4 a 0 0 0))
  | [a; b] => firstn 3 (five (big4 a b 0 0))
  | [a; b; c] => firstn 4 (five (big4 a b c 0))
  end.
(** White space may be inserted anywhere. *)
Inductive spaced : list Z -> list Z -> Prop :=
| sp_nil : spaced [] []
| sp_ws c t u : white c = true -> spaced t u -> spaced t (c :: u)
| sp_char c t u : spaced t u -> spaced (c :: t) (c :: u).

(** ** RunLength, ISO 32000 7.4.5 *)
(** A length byte 0..127 is followed by length + 1 literal bytes, 129..255 by one byte to be repeated
    257 - length times, 128 ends the data. *)
Inductive run_length : list Z -> list Z -> Prop :=
| rl_eod rest : run_length (128 :: rest) []
| rl_lit n lit t d : 0 <= n <= 127 -> Z.of_nat (length lit) = n + 1 -> run_length t d ->
    run_length (n :: lit ++ t) (lit ++ d)
| rl_run n c t d : 129 <= n <= 255 -> run_length t d ->
    run_length (n :: c :: t) (repeat c (Z.to_nat (257 - n)) ++ d).

(** ** LZW, ISO 32000 7.4.4 (EarlyChange 1) *)
(** Bits of a number, most significant first *)
Fixpoint bits (w : nat) (x : Z) : list bool :=
  match w with O => [] | S w' => Z.testbit x (Z.of_nat w') :: bits w' x end.
Definition byte_bits (l : list Z) : list bool := flat_map (bits 8) l.

(** The width of the code that follows [i] codes since the last clear code: the table then has 258 + i
    entries in the encoder; the width grows one code early. *)
Definition lzw_width (i : nat) : nat :=
  if Nat.ltb (258 + i) 512 then 9 else if Nat.ltb (258 + i) 1024 then 10
  else if Nat.ltb (258 + i) 2048 then 11 else 12.

(** The initial table: one entry per byte, and the two reserved codes *)
Definition lzw_start : list (list Z) := map (fun i => [Z.of_nat i]) (seq 0 256) ++ [[]; []].

(** [lzw_segment table prev i chunks bs]: the chunks of data are encoded one code each. Before a chunk is
    coded, the table is extended with the previous chunk plus the first byte of this one. *)
Inductive lzw_segment : list (list Z) -> option (list Z) -> nat -> list (list Z) -> list bool -> Prop :=
| lz_nil t p i : lzw_segment t p i [] []
| lz_chunk t p i c s more t' code bs :
    t' = match p with None => t | Some q => t ++ [q ++ [c]] end ->
    nth_error t' code = Some (c :: s) -> (i < 3839)%nat ->
    lzw_segment t' (Some (c :: s)) (S i) more bs ->
    lzw_segment t p i ((c :: s) :: more) (bits (lzw_width i) (Z.of_nat code) ++ bs).

(** A whole stream: after a code that clears the table, some chunks; at the end the EOD code. [k] is the
    number of codes since the last clear code. *)
Inductive lzw_stream : nat -> list (list Z) -> list bool -> Prop :=
| lz_eod k rest : lzw_stream k [] (bits (lzw_width k) 257 ++ rest)
| lz_clear k chunks more b1 b2 :
    lzw_segment lzw_start None 0 chunks b1 -> lzw_stream (length chunks) more b2 ->
    lzw_stream k (chunks ++ more) (bits (lzw_width k) 256 ++ b1 ++ b2).

(** ** PNG predictors, RFC 2083 6, and TIFF predictor 2 *)
Definition at0 (l : list Z) (i : Z) : Z := if i <? 0 then 0 else nth (Z.to_nat i) l 0.
(** RFC 2083 6.6 *)
Definition paeth (a b c : Z) : Z :=
  let p := a + b - c in
  let pa := Z.abs (p - a) in let pb := Z.abs (p - b) in let pc := Z.abs (p - c) in
  if (pa <=? pb) && (pa <=? pc) then a else if pb <=? pc then b else c.
(** Prediction of byte [i] of [row] from the bytes before it and the row above; [bpp] bytes per pixel *)
Definition predict (tag bpp : Z) (above row : list Z) (i : Z) : Z :=
  let left := at0 row (i - bpp) in let up := at0 above i in let upleft := at0 above (i - bpp) in
  if tag =? 1 then left else if tag =? 2 then up else if tag =? 3 then (left + up) / 2
  else if tag =? 4 then paeth left up upleft else 0.
Definition filter_row (tag bpp : Z) (above row : list Z) : list Z :=
  map (fun i => (nth i row 0 - predict tag bpp above row (Z.of_nat i)) mod 256) (seq 0 (length row)).
(** An image, each row with its tag; the row above the first is all zero. *)
Fixpoint png_rows (bpp : Z) (above : list Z) (rows : list (Z * list Z)) : list Z :=
  match rows with
  | [] => []
  | (tag, row) :: r => tag :: filter_row tag bpp above row ++ png_rows bpp row r
  end.
(** TIFF 6.0 section 14, 8 bits per component: the difference to the same component of the pixel to the
    left *)
Definition tiff_rows (colors : Z) (rows : list (list Z)) : list Z :=
  flat_map (fun row => map (fun i => (nth i row 0 - at0 row (Z.of_nat i - colors)) mod 256) (seq 0 (length row))) rows.

(** Bytes in a pixel and in a row: whole bytes, rounded up *)
Definition pixel_bytes (colors bpc : Z) : Z := (colors * bpc + 7) / 8.
Definition row_bytes (colors bpc columns : Z) : Z := (columns * colors * bpc + 7) / 8.

(** ** Filter names, ISO 32000 table 6 *)
Definition std_filter (t : ftype) : list Z :=
  match t with
  | FHex => bs "ASCIIHexDecode" | F85 => bs "ASCII85Decode" | FLzw => bs "LZWDecode" | FFlate => bs "FlateDecode"
  | FRle => bs "RunLengthDecode" | FCcitt => bs "CCITTFaxDecode" | FJbig2 => bs "JBIG2Decode" | FDct => bs "DCTDecode"
  | FJpx => bs "JPXDecode" | FCrypt => bs "Crypt"
  end.
(** What an object says, looking through one reference *)
Definition says (heap : Z * Z -> option obj) (o v : obj) : Prop :=
  match o with ORef n g => heap (n, g) = Some v | _ => o = v end.
(** A filter entry declares these filters, in this order. *)
Inductive declares (heap : Z * Z -> option obj) (entry : obj) : list ftype -> Prop :=
| dc_name t : says heap entry (OName (std_filter t)) -> declares heap entry [t]
| dc_array l ts : says heap entry (OArr l) -> Forall2 (fun x t => says heap x (OName (std_filter t))) l ts ->
    declares heap entry ts.
