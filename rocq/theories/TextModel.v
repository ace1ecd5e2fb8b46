(** Unicode conversions and text strings: 3rdparty/utfcpp/utf8/core.h, checked.h, private/utfcpp_extensions.h,
    private/PdfEncodingPrivate.cpp, base/PdfString.cpp, and the keyword lists of
    private/PdfDeclarationsPrivate.cpp. The exceptions of utfcpp (not PdfError) are [Err EInvalidEncoding]. *)
From Coq Require Import String.
From Verif Require Import Base TokModel WriteModel.
Local Open Scope Z_scope.

(** ** UTF-8 *)
(** core.h:85-113 *)
Definition is_trail (c : Z) : bool := Z.shiftr c 6 =? 2.
Definition is_lead_surrogate (cp : Z) : bool := (55296 <=? cp) && (cp <=? 56319).
Definition is_trail_surrogate (cp : Z) : bool := (56320 <=? cp) && (cp <=? 57343).
Definition is_surrogate (cp : Z) : bool := (55296 <=? cp) && (cp <=? 57343).
Definition code_point_valid (cp : Z) : bool := (cp <=? 1114111) && negb (is_surrogate cp).
(** core.h:115-130 *)
Definition sequence_length (lead : Z) : Z :=
  if lead <? 128 then 1 else if Z.shiftr lead 5 =? 6 then 2 else if Z.shiftr lead 4 =? 14 then 3
  else if Z.shiftr lead 3 =? 30 then 4 else 0.
(** core.h:132-149 *)
Definition overlong (cp len : Z) : bool :=
  if cp <? 128 then negb (len =? 1) else if cp <? 2048 then negb (len =? 2) else if cp <? 65536 then negb (len =? 3) else false.

(** core.h:153-237 get_sequence_1..4 with increase_safely: the code point and the rest *)
Definition get_sequence (len : Z) (l : list Z) : res (Z * list Z) :=
  match l with
  | [] => Err EInvalidEncoding
  | c0 :: r =>
    if len =? 1 then Ok (c0, r)
    else
      match r with
      | [] => Err EInvalidEncoding
      | c1 :: r =>
        if negb (is_trail c1) then Err EInvalidEncoding
        else if len =? 2 then Ok (Z.land (Z.shiftl c0 6) 2047 + Z.land c1 63, r)
        else
          match r with
          | [] => Err EInvalidEncoding
          | c2 :: r =>
            if negb (is_trail c2) then Err EInvalidEncoding
            else if len =? 3 then Ok (Z.land (Z.shiftl c0 12) 65535 + Z.land (Z.shiftl c1 6) 4095 + Z.land c2 63, r)
            else
              match r with
              | [] => Err EInvalidEncoding
              | c3 :: r =>
                if negb (is_trail c3) then Err EInvalidEncoding
                else Ok (Z.land (Z.shiftl c0 18) 2097151 + Z.land (Z.shiftl c1 12) 262143 + Z.land (Z.shiftl c2 6) 4095
                         + Z.land c3 63, r)
              end
          end
      end
  end.
(** core.h:239-292 validate_next, checked.h:138-156 next *)
Definition utf8_next (l : list Z) : res (Z * list Z) :=
  match l with
  | [] => Err EInvalidEncoding
  | c :: _ =>
    let len := sequence_length c in
    if len =? 0 then Err EInvalidEncoding
    else
      do (cp, r) <- get_sequence len l;
      if code_point_valid cp then (if overlong cp len then Err EInvalidEncoding else Ok (cp, r)) else Err EInvalidEncoding
  end.

(** checked.h:72-98 append; static_cast to uint8_t *)
Definition utf8_append (cp : Z) : res (list Z) :=
  if negb (code_point_valid cp) then Err EInvalidEncoding
  else if cp <? 128 then Ok [u8 cp]
  else if cp <? 2048 then Ok [u8 (Z.lor (Z.shiftr cp 6) 192); u8 (Z.lor (Z.land cp 63) 128)]
  else if cp <? 65536
    then Ok [u8 (Z.lor (Z.shiftr cp 12) 224); u8 (Z.lor (Z.land (Z.shiftr cp 6) 63) 128); u8 (Z.lor (Z.land cp 63) 128)]
  else Ok [u8 (Z.lor (Z.shiftr cp 18) 240); u8 (Z.lor (Z.land (Z.shiftr cp 12) 63) 128);
           u8 (Z.lor (Z.land (Z.shiftr cp 6) 63) 128); u8 (Z.lor (Z.land cp 63) 128)].

(** All code points of a text; [next] always consumes, the text length is enough fuel *)
Fixpoint utf8_fold (fuel : nat) (l : list Z) : res (list Z) :=
  match l with
  | [] => Ok []
  | _ => match fuel with
         | O => Fuel
         | S f => do (cp, r) <- utf8_next l; do cps <- utf8_fold f r; Ok (cp :: cps)
         end
  end.
Definition utf8_points (l : list Z) : res (list Z) := utf8_fold (length l) l.

(** checked.h:231-245 utf8to16: one code point *)
Definition to16 (cp : Z) : list Z :=
  if 65535 <? cp then [u16 (Z.shiftr cp 10 + 55232); u16 (Z.land cp 1023 + 56320)] else [u16 cp].
Definition utf8to16 (l : list Z) : res (list Z) := do cps <- utf8_points l; Ok (flat_map to16 cps).

(** checked.h:204-229 utf16to8 *)
Fixpoint utf16to8 (l : list Z) : res (list Z) :=
  match l with
  | [] => Ok []
  | cp :: r =>
    if is_lead_surrogate cp then
      match r with
      | [] => Err EInvalidEncoding
      | t :: r =>
        if is_trail_surrogate t
        then do a <- utf8_append (u32 (Z.shiftl cp 10 + t + 4238353408)); do o <- utf16to8 r; Ok (a ++ o)
        else Err EInvalidEncoding
      end
    else if is_trail_surrogate cp then Err EInvalidEncoding
    else do a <- utf8_append cp; do o <- utf16to8 r; Ok (a ++ o)
  end.

(** utfcpp_extensions.h:13-80 and 82-160: 16-bit units of a byte buffer, odd sizes refused *)
Fixpoint units_be (l : list Z) : res (list Z) :=
  match l with
  | [] => Ok []
  | [_] => Err EInvalidEncoding
  | a :: b :: r => do u <- units_be r; Ok (Z.lor (Z.shiftl a 8) b :: u)
  end.
Fixpoint units_le (l : list Z) : res (list Z) :=
  match l with
  | [] => Ok []
  | [_] => Err EInvalidEncoding
  | a :: b :: r => do u <- units_le r; Ok (Z.lor (Z.shiftl b 8) a :: u)
  end.
(** PdfDeclarationsPrivate.cpp:915-925 *)
Definition read_utf16be (l : list Z) : res (list Z) := do u <- units_be l; utf16to8 u.
Definition read_utf16le (l : list Z) : res (list Z) := do u <- units_le l; utf16to8 u.

(** ** PDFDocEncoding, PdfEncodingPrivate.cpp *)
(** lines 17-274 s_cEncoding *)
Definition doc_table : list Z := [
   0; 1; 2; 3; 4; 5; 6; 7; 8; 9; 10; 11; 12; 13; 14; 15;
   16; 17; 18; 19; 20; 21; 23; 23; 728; 711; 710; 729; 733; 731; 730; 732;
   32; 33; 34; 35; 36; 37; 38; 39; 40; 41; 42; 43; 44; 45; 46; 47;
   48; 49; 50; 51; 52; 53; 54; 55; 56; 57; 58; 59; 60; 61; 62; 63;
   64; 65; 66; 67; 68; 69; 70; 71; 72; 73; 74; 75; 76; 77; 78; 79;
   80; 81; 82; 83; 84; 85; 86; 87; 88; 89; 90; 91; 92; 93; 94; 95;
   96; 97; 98; 99; 100; 101; 102; 103; 104; 105; 106; 107; 108; 109; 110; 111;
   112; 113; 114; 115; 116; 117; 118; 119; 120; 121; 122; 123; 124; 125; 126; 0;
   8226; 8224; 8225; 8230; 8212; 8211; 402; 8260; 8249; 8250; 8722; 8240; 8222; 8220; 8221; 8216;
   8217; 8218; 8482; 64257; 64258; 321; 338; 352; 376; 381; 305; 322; 339; 353; 382; 0;
   8364; 161; 162; 163; 164; 165; 166; 167; 168; 169; 170; 171; 172; 0; 174; 175;
   176; 177; 178; 179; 180; 181; 182; 183; 184; 185; 186; 187; 188; 189; 190; 191;
   192; 193; 194; 195; 196; 197; 198; 199; 200; 201; 202; 203; 204; 205; 206; 207;
   208; 209; 210; 211; 212; 213; 214; 215; 216; 217; 218; 219; 220; 221; 222; 223;
   224; 225; 226; 227; 228; 229; 230; 231; 232; 233; 234; 235; 236; 237; 238; 239;
   240; 241; 242; 243; 244; 245; 246; 247; 248; 249; 250; 251; 252; 253; 254; 255].
Definition doc_code (b : Z) : Z := nth (Z.to_nat b) doc_table 0.

(** lines 374-397 getUTF8ToPdfEncodingMap: bytes in order, later ones replace earlier ones; code 0 means
    undefined except for byte 0. The byte is what find returns. *)
Definition doc_entries : list (Z * Z) :=
  flat_map (fun i => let m := doc_code i in if (m =? 0) && negb (i =? 0) then [] else [(m, i)]) (map Z.of_nat (seq 0 256)).
Definition doc_find (cp : Z) : option Z :=
  fold_left (fun acc e => if fst e =? cp then Some (snd e) else acc) doc_entries None.

(** lines 276-303 CheckValidUTF8ToPdfDocEcondingChars: (valid, isAsciiEqual) *)
Fixpoint check_doc (fuel : nat) (ascii : bool) (l : list Z) : res (bool * bool) :=
  match l with
  | [] => Ok (true, ascii)
  | _ =>
    match fuel with
    | O => Fuel
    | S f =>
      do (cp, r) <- utf8_next l;
      match (if 65535 <? cp then None else doc_find cp) with
      | None => Ok (false, false)
      | Some b => check_doc f (ascii && negb ((128 <=? cp) || negb (schar b =? schar (u8 cp)))) r
      end
    end
  end.

(** lines 305-315 IsPdfDocEncodingCoincidentToUTF8: indexes the table with the position *)
Fixpoint coincident_from (i : nat) (l : list Z) : res bool :=
  match l with
  | [] => Ok true
  | c :: r => match nth_error doc_table i with
              | None => UB
              | Some m => if c =? m then coincident_from (S i) r else Ok false
              end
  end.
Definition coincident (l : list Z) : res bool := coincident_from 0 l.

(** lines 326-350 TryConvertUTF8ToPdfDocEncoding *)
Fixpoint try_doc (fuel : nat) (l : list Z) : res (option (list Z)) :=
  match l with
  | [] => Ok (Some [])
  | _ =>
    match fuel with
    | O => Fuel
    | S f =>
      do (cp, r) <- utf8_next l;
      match (if 65535 <? cp then None else doc_find cp) with
      | None => Ok None
      | Some b => do o <- try_doc f r; Ok (match o with None => None | Some s => Some (b :: s) end)
      end
    end
  end.
Definition try_utf8_to_doc (l : list Z) : res (option (list Z)) := try_doc (length l) l.
(** lines 317-324 *)
Definition utf8_to_doc (l : list Z) : res (list Z) :=
  do o <- try_utf8_to_doc l; match o with Some s => Ok s | None => Err EInvalidHandle end.

(** lines 359-372 ConvertPdfDocEncodingToUTF8: (text, isAsciiEqual); [ch != (char)mappedCode] compares an
    unsigned with a signed char *)
Fixpoint doc_to_utf8 (l : list Z) : res (list Z * bool) :=
  match l with
  | [] => Ok ([], true)
  | c :: r =>
    let m := doc_code c in
    do a <- utf8_append m; do (o, e) <- doc_to_utf8 r;
    Ok (a ++ o, negb ((128 <=? m) || negb (c =? schar (u8 m))) && e)
  end.

(** ** PdfString.cpp *)
Inductive pstate := SRaw | SAscii | SDoc | SUnicode.
Record pstr := mk_pstr { ps_state : pstate; ps_chars : list Z; ps_hex : bool }.

(** lines 304-320 initFromUtf8String; m_isHex is false (45-55) *)
Definition init_utf8 (l : list Z) : res pstr :=
  match l with
  | [] => Ok (mk_pstr SAscii [] false)
  | _ =>
    do (valid, ascii) <- check_doc (length l) true l;
    Ok (mk_pstr (if valid then (if ascii then SAscii else SDoc) else SUnicode) l false)
  end.
(** lines 62-65 FromRaw; the tokenizer makes the same state *)
Definition from_raw (l : list Z) (hex : bool) : pstr := mk_pstr SRaw l hex.

(** lines 116-166 of Write, the bytes to be written (before encryption); the failure of the conversion is
    ignored, its output is then empty. ByteSwap on a little-endian machine makes the units big-endian; on a
    big-endian one they already are. *)
Definition unit_be (u : Z) : list Z := [u / 256; u mod 256].
Definition string_data (p : pstr) : res (list Z) :=
  match ps_state p with
  | SRaw | SAscii => Ok (ps_chars p)
  | SDoc => do o <- try_utf8_to_doc (ps_chars p); Ok (match o with Some s => s | None => [] end)
  | SUnicode => do u <- utf8to16 (ps_chars p); Ok (flat_map unit_be (65279 :: u))
  end.
(** lines 116-209 Write without encryption *)
Definition write_text (p : pstr) : res (list Z) := do d <- string_data p; Ok (write_string (ps_hex p) d).

(** lines 416-432 getEncoding *)
Inductive senc := EncBE | EncLE | Enc8 | EncDoc.
Definition get_encoding (l : list Z) : senc :=
  if beq (firstn 2 l) [254; 255] then EncBE
  else if beq (firstn 2 l) [255; 254] then EncLE
  else if beq (firstn 3 l) [239; 187; 191] then Enc8
  else EncDoc.
(** lines 322-375 evaluateString *)
Definition evaluate (p : pstr) : res pstr :=
  match ps_state p with
  | SRaw =>
    match get_encoding (ps_chars p) with
    | EncBE => do t <- read_utf16be (skipn 2 (ps_chars p)); Ok (mk_pstr SUnicode t (ps_hex p))
    | EncLE => do t <- read_utf16le (skipn 2 (ps_chars p)); Ok (mk_pstr SUnicode t (ps_hex p))
    | Enc8 => Ok (mk_pstr SUnicode (skipn 3 (ps_chars p)) (ps_hex p))
    | EncDoc => do (t, a) <- doc_to_utf8 (ps_chars p); Ok (mk_pstr (if a then SAscii else SDoc) t (ps_hex p))
    end
  | _ => Ok p
  end.
(** lines 216-220 GetString *)
Definition get_string (p : pstr) : res (list Z) := do q <- evaluate p; Ok (ps_chars q).

(** lines 381-391, 401-414 *)
Definition valid_text (p : pstr) : bool := match ps_state p with SRaw => false | _ => true end.
Definition state_eqb (a b : pstate) : bool :=
  match a, b with SRaw, SRaw | SAscii, SAscii | SDoc, SDoc | SUnicode, SUnicode => true | _, _ => false end.
Definition can_compare (a b : pstr) : bool := state_eqb (ps_state a) (ps_state b) || valid_text a || valid_text b.
(** lines 234-246, 266-278 operator== and operator!= of two different string objects not sharing data *)
Definition str_eq (a b : pstr) : bool := can_compare a b && beq (ps_chars a) (ps_chars b).
Definition str_ne (a b : pstr) : bool := negb (can_compare a b) || negb (beq (ps_chars a) (ps_chars b)).
(** lines 258-264 operator== with a text *)
Definition str_eq_text (a : pstr) (t : list Z) : bool := valid_text a && beq (ps_chars a) t.
(** lines 393-399 GetRawData, runtime_error *)
Definition raw_data (p : pstr) : res (list Z) := match ps_state p with SRaw => Ok (ps_chars p) | _ => Err EInvalidHandle end.

(** ** Keywords, PdfDeclarationsPrivate.cpp:456-502 *)
(** 456-485; [cur] are the characters since tokenStart *)
Fixpoint keywords_from (fuel : nat) (cur : list Z) (l : list Z) : res (list (list Z)) :=
  match l with
  | [] => Ok (match cur with [] => [] | _ => [cur] end)
  | _ =>
    match fuel with
    | O => Fuel
    | S f =>
      do (cp, r) <- utf8_next l;
      let cur := cur ++ firstn (length l - length r) l in
      if (cp =? 13) || (cp =? 10)
      then do o <- keywords_from f [] r; Ok (match cur with [] => o | _ => cur :: o end)
      else keywords_from f cur r
    end
  end.
Definition keywords_list (l : list Z) : res (list (list Z)) := keywords_from (length l) [] l.
(** 487-502 *)
Definition keywords_string (ks : list (list Z)) : list Z :=
  match ks with [] => [] | k :: r => k ++ flat_map (fun k => [13; 10] ++ k) r end.
