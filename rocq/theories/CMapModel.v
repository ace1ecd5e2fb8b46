(** CMaps: src/pdfmm/base/PdfCMapEncoding.cpp, PdfPostScriptTokenizer.cpp, and the writers of PdfEncodingMap.cpp, PdfEncodingCommon.cpp,
    PdfIdentityEncoding.cpp and PdfEncoding.cpp. The stream is its decoded bytes. Conversions from double (std::log, std::pow) are exact. *)
From Coq Require Import String Permutation.
From Verif Require Import Base TokModel WriteModel TextModel CodeModel.
Local Open Scope Z_scope.

(** ** PdfPostScriptTokenizer.cpp *)
(** 13-17: a tokenizer which reads no references *)
Definition ps_params : rparams := mk_rp (Z.to_nat 4095) false (Z.to_nat 256).
Inductive ps_item := PKey (t : list Z) | PVal (o : obj) | PProc.
Definition ps_fuel (s : tst) : nat := (3 * (length (tin s) + length (tq s)) + 3)%nat.
(** 30-94 TryReadNext; [None] is the result false. The readers are called without the guard of the recursion *)
Definition ps_next (s : tst) : res (option (ps_item * tst)) :=
  match next_token (rbuf ps_params) s with
  | None => Ok None
  | Some ((ty, t), s1) =>
    match ty with
    | TLBrace | TRBrace => Ok (Some (PProc, s1))
    | _ => do (dt, s2) <- determine (rbuf ps_params) (rrefs ps_params) (ty, t) s1;
           do (v, s3) <- read_data ps_params (ps_fuel s2) 0 dt s2;
           Ok (Some (match v with Some o => PVal o | None => PKey t end, s3))
    end
  end.
(** 19-23 ReadNextVariant *)
Definition ps_variant (s : tst) : res (obj * tst) :=
  do (v, s1) <- read_next ps_params (ps_fuel s) 0 s; match v with Some o => Ok (o, s1) | None => Err EUnexpectedEOF end.

(** ** PdfCMapEncoding.cpp *)
(** 22-26 CodeLimits *)
Record code_limits := mk_cl { cl_min : Z; cl_max : Z }.
Definition new_limits : code_limits := mk_cl 255 0.
(** 327-358 getCodeFromVariant. For a negative number the loop does not end; it has no effects, which is undefined. A shift by
    32 or more, for the fifth byte of a string, is undefined *)
Fixpoint bytes_of_number (fuel : nat) (n : Z) : Z :=
  match fuel with O => 0 | S f => if n =? 0 then 0 else 1 + bytes_of_number f (Z.shiftr n 8) end.
Fixpoint sum_bytes (i : Z) (l : list Z) : Z :=
  match l with [] => 0 | b :: r => u32 (Z.shiftl b (8 * i) + sum_bytes (i + 1) r) end.
Definition code_of_variant (o : obj) : res code :=
  match o with
  | ONum n => if n <? 0 then UB else Ok (mk_code (u32 n) (if n =? 0 then 1 else bytes_of_number 8 n))
  | OStr _ x => if 4 <? Z.of_nat (length x) then UB else Ok (mk_code (sum_bytes 0 (rev x)) (Z.of_nat (length x)))
  | _ => Err EInvalidDataType
  end.
(** 368-377 with the limits *)
Definition get_code (o : obj) (l : code_limits) : res (code * code_limits) :=
  do c <- code_of_variant o;
  Ok (c, mk_cl (if c_size c <? cl_min l then c_size c else cl_min l) (if cl_max l <? c_size c then c_size c else cl_max l)).
(** 360-366 pushMapping *)
Definition push_mapping (m : char_map) (c : code) (cps : list Z) : res char_map := match cps with [] => Ok m | _ => push m c cps end.
(** 286-292 handleStringMapping, 385-388 handleNameMapping (PdfName.cpp:124-136), 390-399 handleUtf8String *)
Definition string_mapping (x : list Z) : res (list Z) := do u <- read_utf16be x; utf8_points u.
Definition name_mapping (n : list Z) : res (list Z) := do (u, same) <- doc_to_utf8 n; utf8_points (if same then n else u).
(** 295-323 handleRangeMapping; [back] of an empty vector is undefined *)
Fixpoint push_range (m : char_map) (lo : Z) (base : list Z) (back : Z) (size : Z) (i : Z) (n : nat) : res char_map :=
  match n with
  | O => Ok m
  | S k => do m <- push_mapping m (mk_code (u32 (lo + i)) size) (base ++ [u32 (back + i)]); push_range m lo base back size (i + 1) k
  end.
Definition handle_range (m : char_map) (lo : Z) (dst : list Z) (size range : Z) : res char_map :=
  match dst with
  | [] => UB
  | _ => push_range m lo (if (length dst =? 1)%nat then [] else dst) (last dst 0) size 0 (Z.to_nat range)
  end.
(** 154-167: an array. arr[i] checks the index (PdfArray.h) *)
Fixpoint push_array (m : char_map) (lo size i range : Z) (l : list obj) : res char_map :=
  if i <? range then
    match l with
    | [] => Err EValueOutOfRange
    | o :: r =>
      do cps <- match o with OStr true x => string_mapping x | OName n => name_mapping n | _ => Err EInvalidDataType end;
      do m <- push_mapping m (mk_code (u32 (lo + i)) size) cps;
      push_array m lo size (i + 1) range r
    end
  else Ok m.
(** 406-438 readNextVariantSequence; [None]: the end *)
Definition read_sequence (last : list Z) (s : tst) : res (option obj * tst) :=
  do r <- ps_next s;
  match r with
  | None => Err EInvalidStream
  | Some (PKey t, s) => if beq t last then Ok (None, s) else Err EInvalidStream
  | Some (PVal o, s) => Ok (Some o, s)
  | Some (PProc, _) => Err EInvalidEnumValue
  end.
(** What the loops change: the map, the limits and the tokenizer *)
Record cstate := mk_cs { cs_map : char_map; cs_lim : code_limits; cs_tok : tst }.
(** 122-135 *)
Fixpoint codespace (fuel : nat) (c : cstate) : res cstate :=
  match fuel with
  | O => Fuel
  | S f =>
    do (v, s) <- read_sequence (bs "endcodespacerange") (cs_tok c);
    match v with
    | None => Ok (mk_cs (cs_map c) (cs_lim c) s)
    | Some o => do (_, l) <- get_code o (cs_lim c); do (o, s) <- ps_variant s; do (_, l) <- get_code o l; codespace f (mk_cs (cs_map c) l s)
    end
  end.
(** 138-184 *)
Definition bf_destination (m : char_map) (lo size range : Z) (o : obj) : res char_map :=
  match o with
  | OArr l => push_array m lo size 0 range l
  | OStr true x => do dst <- string_mapping x; handle_range m lo dst size range
  | OName n => do dst <- name_mapping n; handle_range m lo dst size range
  | _ => Err EInvalidDataType
  end.
Fixpoint bfrange (fuel : nat) (c : cstate) : res cstate :=
  match fuel with
  | O => Fuel
  | S f =>
    do (v, s) <- read_sequence (bs "endbfrange") (cs_tok c);
    match v with
    | None => Ok (mk_cs (cs_map c) (cs_lim c) s)
    | Some o =>
      do (lo, l) <- get_code o (cs_lim c); do (o, s) <- ps_variant s; do (hi, l) <- get_code o l; do (o, s) <- ps_variant s;
      do m <- bf_destination (cs_map c) (c_num lo) (c_size lo) (u32 (c_num hi - c_num lo + 1)) o;
      bfrange f (mk_cs m l s)
    end
  end.
(** 187-217 *)
Fixpoint bfchar (fuel : nat) (c : cstate) : res cstate :=
  match fuel with
  | O => Fuel
  | S f =>
    do (v, s) <- read_sequence (bs "endbfchar") (cs_tok c);
    match v with
    | None => Ok (mk_cs (cs_map c) (cs_lim c) s)
    | Some o =>
      do (src, l) <- get_code o (cs_lim c); do (o, s) <- ps_variant s;
      do (cps, l) <- match o with
                     | ONum _ => do (d, l) <- get_code o l; Ok ([c_num d], l)
                     | OStr true x => do cps <- string_mapping x; Ok (cps, l)
                     | OName n => do cps <- name_mapping n; Ok (cps, l)
                     | _ => Err EInvalidDataType
                     end;
      do m <- push_mapping (cs_map c) src cps;
      bfchar f (mk_cs m l s)
    end
  end.
(** 218-244 *)
Fixpoint cidrange (fuel : nat) (c : cstate) : res cstate :=
  match fuel with
  | O => Fuel
  | S f =>
    do (v, s) <- read_sequence (bs "endcidrange") (cs_tok c);
    match v with
    | None => Ok (mk_cs (cs_map c) (cs_lim c) s)
    | Some o =>
      do (lo, l) <- get_code o (cs_lim c); do (o, s) <- ps_variant s; do (hi, l) <- get_code o l; do (o, s) <- ps_variant s; do (d, l) <- get_code o l;
      do m <- push_range (cs_map c) (c_num lo) [] (c_num d) (c_size lo) 0 (Z.to_nat (u32 (c_num hi - c_num lo + 1)));
      cidrange f (mk_cs m l s)
    end
  end.
(** 251-263: the result of TryReadNext is ignored; without a value the variant is the one before *)
Fixpoint cidchar (fuel : nat) (count : Z) (stale : obj) (c : cstate) : res cstate :=
  if 0 <? count then
    match fuel with
    | O => Fuel
    | S f =>
      do r <- ps_next (cs_tok c);
      let (o, s) := match r with None => (stale, cs_tok c) | Some (PVal o, s) => (o, s) | Some (_, s) => (stale, s) end in
      do (src, l) <- get_code o (cs_lim c); do (o, s) <- ps_variant s; do (d, l) <- get_code o l;
      do m <- push_mapping (cs_map c) src [c_num d];
      cidchar f (count - 1) o (mk_cs m l s)
    end
  else Ok c.
(** 247-250; (int) of an int64_t *)
Definition int32 (n : Z) : Z := let r := n mod 4294967296 in if r <? 2147483648 then r else r - 4294967296.
Definition cidchars (fuel : nat) (tokens : list obj) (c : cstate) : res cstate :=
  match tokens with
  | [ONum n] => cidchar fuel (int32 n) ONull c
  | [_] => Err EInvalidDataType
  | _ => Err EInvalidStream
  end.
(** 117-280: the loop over all tokens *)
Definition section (fuel : nat) (key : list Z) (tokens : list obj) (c : cstate) : res cstate :=
  if beq key (bs "begincodespacerange") then codespace fuel c
  else if beq key (bs "beginbfrange") then bfrange fuel c
  else if beq key (bs "beginbfchar") then bfchar fuel c
  else if beq key (bs "begincidrange") then cidrange fuel c
  else if beq key (bs "begincidchar") then cidchars fuel tokens c
  else Ok c.
Fixpoint cmap_loop (fuel : nat) (tokens : list obj) (c : cstate) : res (char_map * code_limits) :=
  match fuel with
  | O => Fuel
  | S f =>
    do r <- ps_next (cs_tok c);
    match r with
    | None => Ok (cs_map c, cs_lim c)
    | Some (PKey t, s) => do c <- section f t tokens (mk_cs (cs_map c) (cs_lim c) s); cmap_loop f [] c
    | Some (PVal o, s) => cmap_loop f (o :: tokens) (mk_cs (cs_map c) (cs_lim c) s)
    | Some (PProc, _) => Err EInternalLogic
    end
  end.
(** 104-116 parseCMapObject *)
Definition parse_cmap (text : list Z) : res (char_map * code_limits) := cmap_loop (S (length text)) [] (mk_cs new_map new_limits (mk_tst [] text)).
(** 48-89 CreateFromObject *)
Inductive encoding := EIdentity (l : limits) | EMap (m : char_map) (l : limits).
Fixpoint is_identity (prev : Z) (m : unit_map) : bool :=
  match m with
  | [] => true
  | (c, cps) :: r =>
    if (1 <? Z.of_nat (length cps)) || negb (c_num c =? hd 0 cps) || (u32 (prev + 1) <? c_num c) then false else is_identity (c_num c) r
  end.
Definition create_from_object (text : list Z) : res encoding :=
  do (m, cl) <- parse_cmap text;
  let l := m_limits m in
  let l := mk_limits (if cl_min cl <? l_min l then cl_min cl else l_min l) (if l_max l <? cl_max cl then cl_max cl else l_max l) (l_first l) (l_last l) in
  Ok (match m_map m with
      | (c, _) :: _ => if (l_min l =? l_max l) && is_identity (u32 (c_num c - 1)) (m_map m) then EIdentity l else EMap m l
      | [] => EMap m l
      end).

(** ** Writing *)
(** PdfEncodingCommon.cpp:44-96 WriteHexTo: at least two digits for each byte *)
Fixpoint fixed_hex (w : nat) (n : Z) : list Z := match w with O => [] | S k => hex_digit (n / 16 ^ Z.of_nat k mod 16) :: fixed_hex k n end.
Definition hex_len (n : Z) : nat := Z.to_nat (Z.log2 n / 4 + 1).
Definition write_code (c : code) : res (list Z) :=
  if (1 <=? c_size c) && (c_size c <=? 4)
  then Ok (60 :: fixed_hex (Nat.max (2 * Z.to_nat (c_size c)) (hex_len (c_num c))) (c_num c) ++ [62])
  else Err EValueOutOfRange.
(** PdfEncodingMap.cpp:240-271 AppendUTF16CodeTo *)
Definition hex_point (cp : Z) : list Z := flat_map hex_byte (flat_map unit_be (to16 cp)).
Fixpoint points_text (cps : list Z) : list Z :=
  match cps with
  | [] => []
  | [cp] => hex_point cp
  | cp :: r => hex_point cp ++ 32 :: points_text r
  end.
Definition write_points (cps : list Z) : list Z := 60 :: points_text cps ++ [62].
(** PdfEncodingMap.cpp:309-350 AppendCodeSpaceRange of PdfEncodingMapBase; [order] is the order of the unordered_map *)
Fixpoint add_range (rs : list (code * code)) (c : code) : list (code * code) :=
  match rs with
  | [] => [(c, c)]
  | (a, b) :: r =>
    if c_size a =? c_size c then (if c_num c <? c_num a then c else a, if c_num b <? c_num c then c else b) :: r else (a, b) :: add_range r c
  end.
Definition code_ranges (m : unit_map) : list (code * code) := fold_left (fun rs p => add_range rs (fst p)) m [].
Fixpoint write_ranges (rs : list (code * code)) : res (list Z) :=
  match rs with
  | [] => Ok []
  | (a, b) :: r => do ta <- write_code a; do tb <- write_code b; do t <- write_ranges r; Ok (ta ++ tb ++ match r with [] => [] | _ => 10 :: t end)
  end.
(** 352-369 AppendToUnicodeEntries of PdfEncodingMapBase *)
Fixpoint write_chars (m : unit_map) : res (list Z) :=
  match m with
  | [] => Ok []
  | (c, cps) :: r => do t <- write_code c; do u <- write_chars r; Ok (t ++ 32 :: write_points cps ++ 10 :: u)
  end.
Definition write_entries (m : unit_map) : res (list Z) := do t <- write_chars m; Ok (dec (Z.of_nat (length m)) ++ bs " beginbfchar" ++ 10 :: t ++ bs "endbfchar").
(** PdfEncoding.cpp:653-681 writeToUnicodeCMap *)
Definition nl : list Z := [10].
Definition unicode_head : list Z :=
  bs "/CIDInit /ProcSet findresource begin" ++ nl ++ bs "12 dict begin" ++ nl ++ bs "begincmap" ++ nl ++ bs "/CIDSystemInfo <<" ++ nl
  ++ bs "   /Registry (Adobe)" ++ nl ++ bs "   /Ordering (UCS)" ++ nl ++ bs "   /Supplement 0" ++ nl ++ bs ">> def" ++ nl
  ++ bs "/CMapName /Adobe-Identity-UCS def" ++ nl ++ bs "/CMapType 2 def" ++ nl ++ bs "1 begincodespacerange" ++ nl.
Definition cmap_foot : list Z := nl ++ bs "endcmap" ++ nl ++ bs "CMapName currentdict / CMap defineresource pop" ++ nl ++ bs "end" ++ nl ++ bs "end".
Definition unicode_cmap (ranges entries : list Z) : list Z := unicode_head ++ ranges ++ nl ++ bs "endcodespacerange" ++ nl ++ entries ++ cmap_foot.
Definition write_map (order : list (code * code) -> list (code * code)) (s : char_map) : res (list Z) :=
  do r <- write_ranges (order (code_ranges (m_map s))); do e <- write_entries (m_map s); Ok (unicode_cmap r e).
(** PdfEncodingMap.cpp:273-280 AppendCodeSpaceRange, 407-432 AppendToUnicodeEntries of a one byte encoding *)
Definition write_limits (l : limits) : res (list Z) := do a <- write_code (l_first l); do b <- write_code (l_last l); Ok (a ++ b).
Fixpoint one_byte_list (look : Z -> option (list Z)) (c : Z) (n : nat) : res (list Z) :=
  match n with
  | O => Ok []
  | S k => match look c with None => Err EInvalidFontFile | Some cps => do t <- one_byte_list look (c + 1) k; Ok (write_points cps ++ 10 :: t) end
  end.
Definition one_byte_entries (l : limits) (look : Z -> option (list Z)) : res (list Z) :=
  do a <- write_code (l_first l); do b <- write_code (l_last l);
  do t <- one_byte_list look (c_num (l_first l)) (Z.to_nat (c_num (l_last l) - c_num (l_first l)));
  Ok (bs "1 beginbfrange" ++ nl ++ a ++ [32] ++ b ++ bs " [" ++ nl ++ t ++ bs "]" ++ nl ++ bs "endbfrange").
Definition write_one_byte (l : limits) (look : Z -> option (list Z)) : res (list Z) :=
  do r <- write_limits l; do e <- one_byte_entries l look; Ok (unicode_cmap r e).
