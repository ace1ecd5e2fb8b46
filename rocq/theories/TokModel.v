(** Model of the tokenizer and object reader: src/pdfmm/base/PdfTokenizer.cpp,
    the readers of names (PdfName.cpp) and hex strings (PdfString.cpp).

    Simplifications common to the file:
    - an [InputStreamDevice] is the list of bytes still to be read;
    - no decryption ([PdfStatefulEncrypt] without encryption);
    - a raised error drops the tokenizer state (the code leaves a token in the queue). *)
From Coq Require Import String.
From Verif Require Import Base.
Local Open Scope Z_scope.

(** PdfTokenizer.cpp:656-675 IsWhitespace *)
Definition is_ws (c : Z) : bool :=
  (c =? 0) || (c =? 9) || (c =? 10) || (c =? 12) || (c =? 13) || (c =? 32).

(** PdfTokenizer.cpp:677-704 IsDelimiter: ( ) < > [ ] { } / % *)
Definition is_delim (c : Z) : bool :=
  (c =? 40) || (c =? 41) || (c =? 60) || (c =? 62) || (c =? 91) || (c =? 93)
  || (c =? 123) || (c =? 125) || (c =? 47) || (c =? 37).

(** PdfTokenizer.cpp:737-740 IsRegular *)
Definition is_regular (c : Z) : bool := negb (is_ws c) && negb (is_delim c).

(** PdfTokenizer.cpp:742-745 IsPrintable: [ch > 32 && ch < 125] on a signed char *)
Definition is_printable (c : Z) : bool := (32 <? schar c) && (schar c <? 125).

(** C isdigit in the "C" locale; a negative char is outside the defined domain of isdigit and
    taken as not being a digit, as glibc does. *)
Definition is_digit (c : Z) : bool := (48 <=? c) && (c <=? 57).

(** base/PdfTokenizer.h enum PdfTokenType (Unknown is never stored in a returned token) *)
Inductive ttype :=
| TLit | TLParen | TRParen | TLBrace | TRBrace | TLAng | TRAng | TDLAng | TDRAng | TLSq | TRSq | TSlash.

Definition token : Type := ttype * list Z.

(** PdfTokenizer.cpp:706-735 IsTokenDelimiter *)
Definition token_delim (c : Z) : option ttype :=
  if c =? 40 then Some TLParen else if c =? 41 then Some TRParen
  else if c =? 91 then Some TLSq else if c =? 93 then Some TRSq
  else if c =? 123 then Some TLBrace else if c =? 125 then Some TRBrace
  else if c =? 47 then Some TSlash else None.

(** PdfTokenizer.cpp:88-95, comment body: stop before the next line break or at end of data. *)
Fixpoint skip_comment (inp : list Z) : list Z :=
  match inp with
  | [] => []
  | c :: r => if (c =? 10) || (c =? 13) then inp else skip_comment r
  end.

(** PdfTokenizer.cpp:73-159 with count <> 0: the rest of a literal token. [room] is
    [bufferSize - count]. *)
Fixpoint lit_rest (room : nat) (inp : list Z) : list Z * list Z :=
  match room with
  | O => ([], inp)
  | S room' =>
    match inp with
    | [] => ([], [])
    | c :: r =>
      if c =? 37 then ([], skip_comment r)
      else if is_ws c || is_delim c then ([], inp)
      else let '(t, r') := lit_rest room' r in (c :: t, r')
    end
  end.

(** PdfTokenizer.cpp:46-176 TryReadNextToken when no token is queued. [buf] is [bufferSize],
    4095 for the default buffer (PdfTokenizer.h:46, one byte kept for the terminator).
    [comment] is true while inside a comment at count = 0; the line break that ends it is white
    space and skipped by the next iteration, so it is dropped at once. *)
Fixpoint tok_from (buf : nat) (comment : bool) (inp : list Z) : option (token * list Z) :=
  match inp with
  | [] => None
  | c :: r =>
    if comment then tok_from buf (negb ((c =? 10) || (c =? 13))) r
    else if is_ws c then tok_from buf false r
    else if c =? 37 then tok_from buf true r
    else if (c =? 60) || (c =? 62) then
      match r with
      | [] => Some ((TLit, [c]), [])
      | d :: r' =>
        if d =? c then Some ((if c =? 60 then TDLAng else TDRAng, [c; d]), r')
        else Some ((if c =? 60 then TLAng else TRAng, [c]), r)
      end
    else match token_delim c with
         | Some ty => Some ((ty, [c]), r)
         | None => let '(t, r') := lit_rest (Nat.pred buf) r in Some ((TLit, c :: t), r')
         end
  end.

Definition tok (buf : nat) (inp : list Z) : option (token * list Z) := tok_from buf false inp.

(** Tokenizer state: m_tokenQueque and the device. *)
Record tst := mk_tst { tq : list token; tin : list Z }.

(** PdfTokenizer.cpp:46-66: queued tokens first *)
Definition next_token (buf : nat) (s : tst) : option (token * tst) :=
  match tq s with
  | (ty, t) :: q => Some ((ty, firstn buf t), mk_tst q (tin s))
  | [] => match tok buf (tin s) with
          | None => None
          | Some (t, r) => Some (t, mk_tst [] r)
          end
  end.

(** PdfTokenizer.cpp:651-654 EnqueueToken *)
Definition enqueue (s : tst) (t : token) : tst := mk_tst (tq s ++ [t]) (tin s).

(** PDF objects (PdfVariant). A string keeps its raw bytes and whether it is written in hex.
    A real is the exact decimal [m / 10^k]; binary rounding of [double] is not modelled.
    A dictionary is the content of its std::map in key order. *)
Inductive obj :=
| ONull
| OBool (b : bool)
| ONum (n : Z)
| OReal (m : Z) (k : nat)
| OName (n : list Z)
| OStr (hex : bool) (s : list Z)
| ORef (n g : Z)
| OArr (l : list obj)
| ODict (d : list (list Z * obj)).

(** std::string operator<, the order of PdfName keys (PdfName.cpp:296-299): bytes compared as
    unsigned by char_traits<char>. *)
Fixpoint bytes_lt (a b : list Z) : bool :=
  match a, b with
  | _, [] => false
  | [], _ :: _ => true
  | x :: a', y :: b' => (x <? y) || ((x =? y) && bytes_lt a' b')
  end.

(** PdfDictionary.cpp:105-121 AddKey: try_emplace, otherwise assign *)
Fixpoint dict_add {A} (k : list Z) (v : A) (d : list (list Z * A)) : list (list Z * A) :=
  match d with
  | [] => [(k, v)]
  | (k', v') :: r =>
    if beq k k' then (k', v) :: r
    else if bytes_lt k k' then (k, v) :: d
    else (k', v') :: dict_add k v r
  end.

(** PdfDictionary.cpp:123-132 getKey *)
Fixpoint dict_get {A} (k : list Z) (d : list (list Z * A)) : option A :=
  match d with
  | [] => None
  | (k', v') :: r => if beq k k' then Some v' else dict_get k r
  end.

(** Leading digits of a text *)
Fixpoint span_digits (l : list Z) : list Z * list Z :=
  match l with
  | c :: r => if is_digit c then let '(a, b) := span_digits r in (c :: a, b) else ([], l)
  | [] => ([], [])
  end.

(** Value of a digit sequence *)
Definition dec_val (l : list Z) : Z := fold_left (fun a c => a * 10 + (c - 48)) l 0.

Definition int64_ok (z : Z) : bool := (- 2 ^ 63 <=? z) && (z <? 2 ^ 63).

(** std::from_chars for int64_t: optional minus, at least one digit, stops at the first other
    character; None stands for any error code (invalid_argument, result_out_of_range). *)
Definition from_chars_int (t : list Z) : option Z :=
  let '(neg, r) := match t with c :: r => if c =? 45 then (true, r) else (false, t) | [] => (false, t) end in
  let '(ds, _) := span_digits r in
  match ds with
  | [] => None
  | _ => let v := if neg : bool then - dec_val ds else dec_val ds in
         if int64_ok v then Some v else None
  end.

(** std::from_chars for double with chars_format::fixed on text made of digits, signs and dots:
    optional minus, digits with an optional fraction, at least one digit. Overflow of the double
    range is not modelled. Result: m / 10^k. *)
Definition from_chars_real (t : list Z) : option (Z * nat) :=
  let '(neg, r) := match t with c :: r => if c =? 45 then (true, r) else (false, t) | [] => (false, t) end in
  let '(ip, r2) := span_digits r in
  let fp := match r2 with c :: r3 => if c =? 46 then fst (span_digits r3) else [] | [] => [] end in
  match ip ++ fp with
  | [] => None
  | ds => Some (if neg : bool then - dec_val ds else dec_val ds, length fp)
  end.

(** PdfTokenizer.cpp:265-280: kind of a literal token. [acc] is true once a dot was seen;
    note that a digit after the dot does not reset the kind. None is Unknown. *)
Fixpoint lit_kind (acc : bool) (t : list Z) : option bool :=
  match t with
  | [] => Some acc
  | c :: r =>
    if c =? 46 then lit_kind true r
    else if is_digit c || (c =? 45) || (c =? 43) then lit_kind acc r
    else None
  end.

(** Result of DetermineDataType: a finished value or what to read next *)
Inductive dtype := DVal (o : obj) | DDict | DArr | DStr | DHex | DName | DUnknown.

(** PdfTokenizer.cpp:295-354: a number, with the lookahead of two tokens for a reference.
    When the third token is missing (end of data) the second token is dropped (337-341). *)
Definition determine_number (buf : nat) (read_refs : bool) (num : Z) (s : tst) : dtype * tst :=
  if negb read_refs then (DVal (ONum num), s) else
  match next_token buf s with
  | None => (DVal (ONum num), s)
  | Some ((ty2, t2), s2) =>
    match ty2 with
    | TLit =>
      match from_chars_int t2 with
      | None => (DVal (ONum num), enqueue s2 (ty2, t2))
      | Some gen =>
        match next_token buf s2 with
        | None => (DVal (ONum num), s2)
        | Some ((ty3, t3), s3) =>
          match ty3, t3 with
          | TLit, [82] => (DVal (ORef (u32 num) (u16 gen)), s3)
          | _, _ => (DVal (ONum num), enqueue (enqueue s3 (ty2, t2)) (ty3, t3))
          end
        end
      end
    | _ => (DVal (ONum num), enqueue s2 (ty2, t2))
    end
  end.

(** PdfTokenizer.cpp:239-371 DetermineDataType *)
Definition determine (buf : nat) (read_refs : bool) (t : token) (s : tst) : res (dtype * tst) :=
  let '(ty, x) := t in
  match ty with
  | TLit =>
    if beq x (bs "null") then Ok (DVal ONull, s)
    else if beq x (bs "true") then Ok (DVal (OBool true), s)
    else if beq x (bs "false") then Ok (DVal (OBool false), s)
    else match lit_kind false x with
         | Some true => match from_chars_real x with
                        | Some (m, k) => Ok (DVal (OReal m k), s)
                        | None => Err ENoNumber
                        end
         | Some false => match from_chars_int x with
                         | Some n => Ok (determine_number buf read_refs n s)
                         | None => Err ENoNumber
                         end
         | None => Ok (DUnknown, s)
         end
  | TDLAng => Ok (DDict, s)
  | TLSq => Ok (DArr, s)
  | TLParen => Ok (DStr, s)
  | TLAng => Ok (DHex, s)
  | TSlash => Ok (DName, s)
  | _ => Err EInvalidEnumValue
  end.

(** PdfTokenizer.cpp:794-817 isOctalChar *)
Definition is_octal (c : Z) : bool := (48 <=? c) && (c <=? 55).

(** PdfTokenizer.cpp:747-770 getEscapedCharacter (of the reader); 0 when there is none *)
Definition read_escape (c : Z) : Z :=
  if c =? 110 then 10 else if c =? 114 then 13 else if c =? 116 then 9 else if c =? 98 then 8
  else if c =? 102 then 12 else if c =? 40 then 40 else if c =? 41 then 41 else if c =? 92 then 92 else 0.

(** PdfTokenizer.cpp:490-589 ReadString, one state per combination of the loop variables:
    [SNorm] escape = false; [SEsc] escape without octal; [SOct n v] octal escape with
    octCharCount = n and octValue = v. Returns the collected bytes and the rest of the data.
    The [char] octValue is kept modulo 256. *)
Inductive sst := SNorm | SEsc | SOct (n : Z) (v : Z).

Fixpoint read_string (st : sst) (bal : Z) (inp : list Z) : list Z * list Z :=
  match inp with
  | [] => (match st with SOct _ v => [v] | _ => [] end, [])
  | c :: r =>
    match st with
    | SOct n v =>
      let n := n + 1 in
      if negb (is_octal c) then
        if c =? 41 then ([v], r)
        else if c =? 92 then let '(a, k) := read_string SEsc bal r in (v :: a, k)
        else let '(a, k) := read_string SNorm bal r in (v :: c :: a, k)
      else
        let v := u8 (Z.lor (v * 8) ((c - 48) mod 8)) in
        if n =? 3 then let '(a, k) := read_string SNorm bal r in (v :: a, k)
        else read_string (SOct n v) bal r
    | SEsc =>
      if is_octal c then read_string (SOct 1 ((c - 48) mod 8)) bal r
      else if (c =? 10) || (c =? 13) then read_string SNorm bal r
      else if read_escape c =? 0 then read_string SNorm bal r
      else let '(a, k) := read_string SNorm bal r in (read_escape c :: a, k)
    | SNorm =>
      if (bal =? 0) && (c =? 41) then ([], r)
      else
        let bal := if c =? 40 then bal + 1 else if c =? 41 then bal - 1 else bal in
        if c =? 92 then read_string SEsc bal r
        else let '(a, k) := read_string SNorm bal r in (c :: a, k)
    end
  end.

(** PrivateDeclarations 666-725 TryGetHexValue: value of a hex digit; 0 otherwise *)
Definition hex_val (c : Z) : option Z :=
  if is_digit c then Some (c - 48)
  else if (65 <=? c) && (c <=? 70) then Some (c - 55)
  else if (97 <=? c) && (c <=? 102) then Some (c - 87)
  else None.
Definition is_hex (c : Z) : bool := match hex_val c with Some _ => true | None => false end.

(** PdfTokenizer.cpp:772-788 readHexString without the padding: digits up to '>' *)
Fixpoint hex_digits (inp : list Z) : list Z * list Z :=
  match inp with
  | [] => ([], [])
  | c :: r =>
    if c =? 62 then ([], r)
    else let '(a, k) := hex_digits r in if is_hex c then (c :: a, k) else (a, k)
  end.

(** PdfTokenizer.cpp:789-791: pad to an even number of digits *)
Definition read_hex_text (inp : list Z) : list Z * list Z :=
  let '(ds, k) := hex_digits inp in
  (if Nat.odd (length ds) then ds ++ [48] else ds, k).

(** PdfString.cpp:67-114 FromHexData. [half] is the pending nibble (low = false). A character
    that is no hex digit leaves [val] as TryGetHexValue does, i.e. 0 (it is never passed by the reader). *)
Fixpoint from_hex (half : option Z) (l : list Z) : list Z :=
  match l with
  | [] => match half with Some h => [h] | None => [] end
  | c :: r =>
    if is_ws c then from_hex half r
    else
      let v := match hex_val c with Some v => v | None => 0 end in
      match half with
      | None => from_hex (Some v) r
      | Some h => u8 (Z.lor (h * 16) v) :: from_hex None r
      end
  end.

Definition read_hex (inp : list Z) : list Z * list Z :=
  let '(ds, k) := read_hex_text inp in (from_hex None ds, k).

(** PdfName.cpp:209-210: nibble of an escape, [hi -= (hi < 'A' ? '0' : 'A' - 10)] on unsigned char *)
Definition name_nibble (c : Z) : Z := u8 (c - (if c <? 65 then 48 else 55)).

(** PdfName.cpp:193-221 UnescapeName *)
Fixpoint unescape_name (l : list Z) : list Z :=
  match l with
  | [] => []
  | c :: r =>
    if c =? 35 then
      match r with
      | h :: o :: r' => u8 (Z.lor (name_nibble h * 16) (Z.land (name_nibble o) 15)) :: unescape_name r'
      | _ => c :: unescape_name r
      end
    else c :: unescape_name r
  end.

(** PdfTokenizer.cpp:618-649 ReadName. Peek looks at the device, not at the queue. *)
Definition read_name (buf : nat) (s : tst) : list Z * tst :=
  match tin s with
  | [] => ([], s)
  | c :: _ =>
    if is_ws c then ([], s)
    else match next_token buf s with
         | None => ([], s)
         | Some ((TLit, t), s') => (unescape_name t, s')
         | Some (t, s') => ([], enqueue s' t)
         end
  end.

(** Reader parameters: token buffer, reference reading, maximal recursion depth
    (PrivateDeclarations RecursionGuard, s_MaxRecursionDepth, 256 by default). *)
Record rparams := mk_rp { rbuf : nat; rrefs : bool; rmax : nat }.

Section Reader.
Variable P : rparams.

(** PdfTokenizer.cpp:232-237 TryReadNextVariant (guarded, [depth] = s_recursionDepth on entry,
    PrivateDeclarations 1220-1233), 373-403 tryReadDataType, 405-466 ReadDictionary,
    468-488 ReadArray. [None] is the result false. The value of a dictionary key is read by
    DetermineDataType/tryReadDataType directly (434-445), i.e. without entering the guard. *)
Fixpoint read_variant (fuel : nat) (depth : nat) (t : token) (s : tst) {struct fuel} : res (option obj * tst) :=
  match fuel with
  | O => Fuel
  | S f =>
    if (rmax P <? S depth)%nat then Err EInvalidXRef
    else do (dt, s') <- determine (rbuf P) (rrefs P) t s; read_data f (S depth) dt s'
  end
with read_data (fuel : nat) (depth : nat) (dt : dtype) (s : tst) {struct fuel} : res (option obj * tst) :=
  match fuel with
  | O => Fuel
  | S f =>
    match dt with
    | DVal o => Ok (Some o, s)
    | DUnknown => Ok (None, s)
    | DStr => let '(x, k) := read_string SNorm 0 (tin s) in Ok (Some (OStr false x), mk_tst (tq s) k)
    | DHex => let '(x, k) := read_hex (tin s) in Ok (Some (OStr true x), mk_tst (tq s) k)
    | DName => let '(x, s') := read_name (rbuf P) s in Ok (Some (OName x), s')
    | DArr => do (l, s') <- read_array f depth [] s; Ok (Some (OArr l), s')
    | DDict => do (d, s') <- read_dict f depth [] None s; Ok (Some (ODict d), s')
    end
  end
with read_array (fuel : nat) (depth : nat) (acc : list obj) (s : tst) {struct fuel} : res (list obj * tst) :=
  match fuel with
  | O => Fuel
  | S f =>
    match next_token (rbuf P) s with
    | None => Err EUnexpectedEOF
    | Some ((TRSq, _), s1) => Ok (acc, s1)
    | Some (t, s1) =>
      do (v, s2) <- read_variant f depth t s1;
      match v with
      | None => Err EInvalidDataType
      | Some o => read_array f depth (acc ++ [o]) s2
      end
    end
  end
with read_dict (fuel : nat) (depth : nat) (acc : list (list Z * obj)) (contents : option (list Z)) (s : tst)
    {struct fuel} : res (list (list Z * obj) * tst) :=
  match fuel with
  | O => Fuel
  | S f =>
    match next_token (rbuf P) s with
    | None => Err EUnexpectedEOF
    | Some ((TDRAng, _), s1) =>
      Ok (match contents with
          | None => acc
          | Some x => dict_add (bs "Contents") (OStr true x) acc
          end, s1)
    | Some (t, s1) =>
      do (v, s2) <- read_variant f depth t s1;
      match v with
      | None => Err EInvalidDataType
      | Some (OName key) =>
        match next_token (rbuf P) s2 with
        | None => Err EUnexpectedEOF
        | Some (t', s3) =>
          do (dt, s4) <- determine (rbuf P) (rrefs P) t' s3;
          match beq key (bs "Contents"), dt with
          | true, DHex =>
            let '(x, k) := read_hex (tin s4) in
            read_dict f depth acc (Some x) (mk_tst (tq s4) k)
          | _, _ =>
            do (v', s5) <- read_data f depth dt s4;
            match v' with
            | None => Err EInvalidDataType
            | Some o => read_dict f depth (dict_add key o acc) contents s5
            end
          end
        end
      | Some _ => Err EInvalidDataType
      end
    end
  end.

(** PdfTokenizer.cpp:216-224 TryReadNextVariant: [Ok (None, _)] is the result false. *)
Definition read_next (fuel : nat) (depth : nat) (s : tst) : res (option obj * tst) :=
  match next_token (rbuf P) s with
  | None => Ok (None, s)
  | Some (t, s') => read_variant fuel depth t s'
  end.

End Reader.

(** The library defaults *)
Definition default_params : rparams := mk_rp (Z.to_nat 4095) true (Z.to_nat 256).
