(** Cross-reference tables and streams: src/pdfmm/base/PdfXRef.cpp, PdfXRefStream.cpp, PdfXRefEntry.cpp, the table
    part of PdfParser.cpp and PdfXRefStreamParserObject.cpp. *)
From Coq Require Import String.
From Verif Require Import Base TokModel WriteModel UtilModel DateModel ListModel.
Local Open Scope Z_scope.

(** ** The writer *)

(** std::sort with the comparison [lt]; for equal elements the order is unspecified, here it is that of insertion *)
Fixpoint sort_ins {A} (lt : A -> A -> bool) (x : A) (l : list A) : list A :=
  match l with
  | [] => [x]
  | y :: t => if lt x y then x :: l else y :: sort_ins lt x t
  end.
Definition sort_by {A} (lt : A -> A -> bool) (l : list A) : list A := fold_left (fun acc x => sort_ins lt x acc) l [].

(** PdfXRef.h:30-70 PdfXRefBlock: First, Count (uint32_t), Items, FreeItems *)
Record xblock := mk_xb { xfirst : Z; xcount : Z; xitems : list (ref * Z); xfrees : list ref }.
Definition block_lt (a b : xblock) : bool := xfirst a <? xfirst b.
Definition item_lt (a b : ref * Z) : bool := ref_lt (fst a) (fst b).

(** What is added: an object in use at an offset (or without one: it is only counted), or a free object *)
Inductive xadd := XInUse (off : option Z) | XFreed.

(** PdfXRef.cpp:322-374 PdfXRefBlock::InsertItem; [o] is the offset of an object in use, None for a free object *)
Definition insert_item (r : ref) (o : option Z) (b : xblock) : option xblock :=
  if fst r =? u32 (xfirst b + xcount b) then
    Some (mk_xb (xfirst b) (u32 (xcount b + 1))
            (match o with Some off => xitems b ++ [(r, off)] | None => xitems b end)
            (match o with Some _ => xfrees b | None => xfrees b ++ [r] end))
  else if fst r =? u32 (xfirst b - 1) then
    Some (mk_xb (u32 (xfirst b - 1)) (u32 (xcount b + 1))
            (match o with Some off => (r, off) :: xitems b | None => xitems b end)
            (match o with Some _ => xfrees b | None => r :: xfrees b end))
  else if (u32 (xfirst b - 1) <? fst r) && (fst r <? u32 (xfirst b + xcount b)) then
    Some (mk_xb (xfirst b) (u32 (xcount b + 1))
            (match o with Some off => sort_by item_lt (xitems b ++ [(r, off)]) | None => xitems b end)
            (match o with Some _ => xfrees b | None => sort_by ref_lt (xfrees b ++ [r]) end))
  else None.
(** 53-60: the first block that takes the item *)
Fixpoint insert_blocks (r : ref) (o : option Z) (bs : list xblock) : option (list xblock) :=
  match bs with
  | [] => None
  | b :: t =>
    match insert_item r o b with
    | Some b' => Some (b' :: t)
    | None => match insert_blocks r o t with Some t' => Some (b :: t') | None => None end
    end
  end.
Definition new_block (r : ref) (o : option Z) : xblock :=
  mk_xb (fst r) 1 (match o with Some off => [(r, off)] | None => [] end) (match o with Some _ => [] | None => [r] end).
(** 39-73 addObject on (m_maxObjCount, m_blocks) *)
Definition add_object (s : Z * list xblock) (x : ref * xadd) : Z * list xblock :=
  let '(r, a) := x in
  let mx := if fst s <? fst r then fst r else fst s in
  let put o :=
    match insert_blocks r o (snd s) with
    | Some bs => bs
    | None => sort_by block_lt (snd s ++ [new_block r o])
    end in
  match a with
  | XInUse None => (mx, snd s)
  | XInUse (Some off) => (mx, put (Some off))
  | XFreed => (mx, put None)
  end.
Definition add_objects (l : list (ref * xadd)) : Z * list xblock := fold_left add_object l (0, []).
(** 209-213 GetSize *)
Definition xref_size (s : Z * list xblock) : Z := u32 (fst s + 1).
(** 307-313 SetFirstEmptyBlock, called for incremental updates (PdfWriter.cpp:99-100) *)
Definition first_empty (s : Z * list xblock) : Z * list xblock := (fst s, mk_xb 0 1 [] [] :: snd s).

(** 215-246 mergeBlocks; NoXRef without blocks (begin() + 1 has been computed before) *)
Definition merge2 (a b : xblock) : xblock :=
  mk_xb (xfirst a) (u32 (xcount a + xcount b)) (xitems a ++ xitems b) (xfrees a ++ xfrees b).
Fixpoint merge_from (cur : xblock) (l : list xblock) : list xblock :=
  match l with
  | [] => [cur]
  | n :: t => if xfirst n =? u32 (xfirst cur + xcount cur) then merge_from (merge2 cur n) t else cur :: merge_from n t
  end.
Definition merge_blocks (bs : list xblock) : res (list xblock) :=
  match bs with [] => Err ENoXRef | b :: t => Ok (merge_from b t) end.

(** PdfXRefEntry.h: the entries written *)
Inductive xent := XFree (next gen : Z) | XUsed (off gen : Z).

(** 157-207 getFirstFreeObject, getNextFreeObject: [fs] are the free objects of the block after the current one,
    [later] the blocks after it *)
Definition next_free_num (fs : list ref) (later : list xblock) : Z :=
  match fs ++ flat_map xfrees later with [] => 0 | r :: _ => fst r end.
(** 110-125: the free objects below the item *)
Fixpoint frees_below (r : ref) (fs : list ref) (later : list xblock) : list (Z * xent) * list ref :=
  match fs with
  | f :: t =>
    if ref_lt f r
    then let '(a, k) := frees_below r t later in ((fst f, XFree (next_free_num t later) (snd f)) :: a, k)
    else ([], fs)
  | [] => ([], [])
  end.
(** 132-145: the free objects left *)
Fixpoint frees_left (fs : list ref) (later : list xblock) : list (Z * xent) :=
  match fs with [] => [] | f :: t => (fst f, XFree (next_free_num t later) (snd f)) :: frees_left t later end.
(** 107-145: the entries with their numbers (the numbers are not written) *)
Fixpoint block_entries (items : list (ref * Z)) (fs : list ref) (later : list xblock) : list (Z * xent) :=
  match items with
  | [] => frees_left fs later
  | (r, off) :: t =>
    let '(a, k) := frees_below r fs later in a ++ (fst r, XUsed off (snd r)) :: block_entries t k later
  end.
(** A subsection: first object number, number of entries as announced, the entries *)
Definition section : Type := Z * Z * list (Z * xent).
(** 87-105 *)
Definition section_of (b : xblock) (later : list xblock) : section :=
  let first := if xfirst b =? 1 then 0 else xfirst b in
  let count := if xfirst b =? 1 then u32 (xcount b + 1) else xcount b in
  (first, count,
   (if first =? 0 then [(0, XFree (next_free_num (xfrees b) later) 65535)] else [])
     ++ block_entries (xitems b) (xfrees b) later).
Fixpoint sections_of (bs : list xblock) : list section :=
  match bs with [] => [] | b :: t => section_of b t :: sections_of t end.
(** 75-155 Write: the subsections in order *)
Definition xref_sections (s : Z * list xblock) : res (list section) :=
  do bs <- merge_blocks (snd s); Ok (sections_of bs).

(** 263-286 WriteXRefEntry "{:010d} {:05d} {} \n" and XRefEntryTypeToChar *)
Definition entry_text (e : xent) : list Z :=
  match e with
  | XFree n g => pad0 10 n ++ [32] ++ pad0 5 g ++ [32; 102; 32; 10]
  | XUsed off g => pad0 10 off ++ [32] ++ pad0 5 g ++ [32; 110; 32; 10]
  end.
(** 254-261 WriteSubSection *)
Definition section_text (x : section) : list Z :=
  let '(first, count, es) := x in dec first ++ [32] ++ dec count ++ [10] ++ flat_map (fun e => entry_text (snd e)) es.
(** 248-252 BeginWrite, 75-155 *)
Definition table_text (secs : list section) : list Z := bs "xref" ++ [10] ++ flat_map section_text secs.

(** ** The reader of tables *)

(** PdfXRefEntry.h: a parsed entry; None is an entry not parsed yet. Values are uint64_t and uint32_t. *)
Inductive rent := RFree (next gen : Z) | RUsed (off gen : Z) | RComp (strm idx : Z).
Definition rents : Type := list (option rent).
(** PdfXRefEntry.cpp:79-106 Enlarge; PdfParser::GetMaxObjectCount is 8388607 (PdfParser.cpp:30) *)
Definition enlarge (n : Z) (es : rents) : res rents :=
  if n <? 0 then Err EValueOutOfRange
  else if 8388607 <? n then Err EInvalidXRef
  else Ok (es ++ repeat None (Z.to_nat n - length es)).
(** The first entry set for an object number is kept (m_entries[i].Parsed) *)
Fixpoint set_nth {A} (i : nat) (x : A) (l : list A) : list A :=
  match i, l with
  | _, [] => []
  | O, _ :: t => x :: t
  | S j, y :: t => y :: set_nth j x t
  end.

(** isspace in the "C" locale *)
Definition c_space (c : Z) : bool := (c =? 32) || ((9 <=? c) && (c <=? 13)).
Fixpoint skip_space (l : list Z) : list Z := match l with c :: t => if c_space c then skip_space t else l | [] => [] end.
(** The text up to the terminating NUL *)
Fixpoint c_str (l : list Z) : list Z := match l with c :: t => if c =? 0 then [] else c :: c_str t | [] => [] end.
Fixpoint scan_digits (w : nat) (l : list Z) : list Z * list Z :=
  match w, l with
  | S w', c :: t => if is_digit c then let '(a, k) := scan_digits w' t in (c :: a, k) else ([], l)
  | _, _ => ([], l)
  end.
(** sscanf with a conversion %<w>u of the given size (bits): white space, an optional sign that counts for the
    width, at least one digit. A value too large saturates (strtoul), it cannot occur within 10 digits. *)
Definition scan_uint (w : nat) (bits : Z) (l : list Z) : option (Z * list Z) :=
  let l0 := skip_space l in
  let '(neg, w', l1) :=
    match l0 with
    | c :: t => if c =? 45 then (true, Nat.pred w, t) else if c =? 43 then (false, Nat.pred w, t) else (false, w, l0)
    | [] => (false, w, l0)
    end in
  match scan_digits w' l1 with
  | ([], _) => None
  | (ds, k) => Some ((if neg : bool then - dec_val ds else dec_val ds) mod 2 ^ bits, k)
  end.
(** PdfParser.cpp:434-441 CheckEOL *)
Definition check_eol (a b : Z) : bool :=
  ((a =? 13) && (b =? 10)) || ((a =? 10) && (b =? 13)) || ((a =? 32) && ((b =? 13) || (b =? 10))).
(** 478-528: one entry of 20 bytes; [magic] is m_magicOffset. PTRDIFF_MAX is 2^63 - 1. *)
Definition scan_entry (magic : Z) (buf : list Z) : res rent :=
  match scan_uint 10 64 (c_str buf) with
  | None => Err EInvalidXRef
  | Some (v, s1) =>
    match scan_uint 5 32 s1 with
    | None => Err EInvalidXRef
    | Some (g, s2) =>
      match skip_space s2 with
      | c :: e1 :: e2 :: _ =>
        if negb ((c =? 110) || (c =? 102)) then Err EInvalidXRef
        else if negb (check_eol e1 e2) then Err EInvalidXRef
        else if c =? 102 then Ok (RFree v g)
        else if 2 ^ 63 - 1 <? u64 (v + magic) then Err EValueOutOfRange
        else Ok (RUsed (u64 (v + magic)) g)
      | _ => Err EInvalidXRef
      end
    end
  end.
(** 465-538: the entries one after the other. The result carries what has been read also after an error: the rest
    of the input and the entries. A short read consumes what is there and raises UnexpectedEOF. *)
Fixpoint read_entries (n : nat) (i : Z) (magic : Z) (inp : list Z) (es : rents) : res unit * list Z * rents :=
  match n with
  | O => (Ok tt, inp, es)
  | S n' =>
    let buf := firstn 20 inp in
    let rest := skipn 20 inp in
    if Nat.ltb (length buf) 20 then (Err EUnexpectedEOF, [], es)
    else
      match nth_error es (Z.to_nat i) with
      | Some None =>
        match scan_entry magic buf with
        | Ok e => read_entries n' (i + 1) magic rest (set_nth (Z.to_nat i) (Some e) es)
        | Err e => (Err e, rest, es)
        | UB => (UB, rest, es)
        | Fuel => (Fuel, rest, es)
        end
      | _ => read_entries n' (i + 1) magic rest es
      end
  end.
(** PdfTokenizer::IsWhitespace, 459-463 *)
Fixpoint skip_ws (l : list Z) : list Z := match l with c :: t => if is_ws c then skip_ws t else l | [] => [] end.
(** 448-545 ReadXRefSubsection. The sum of the two numbers is a signed addition. *)
Definition read_subsection (first count magic : Z) (inp : list Z) (es : rents) : res unit * list Z * rents :=
  if first <? 0 then (Err EValueOutOfRange, inp, es)
  else if count <? 0 then (Err EValueOutOfRange, inp, es)
  else if negb (int64_ok (first + count)) then (UB, inp, es)
  else match enlarge (first + count) es with
       | Ok es' => read_entries (Z.to_nat count) first magic (skip_ws inp) es'
       | Err e => (Err e, inp, es)
       | UB => (UB, inp, es)
       | Fuel => (Fuel, inp, es)
       end.
(** PdfTokenizer.cpp:191-208 ReadNextNumber; on NoNumber the token goes to the end of the queue *)
Definition next_number (buf : nat) (s : tst) : res Z * tst :=
  match next_token buf s with
  | None => (Err EUnexpectedEOF, s)
  | Some (t, s') =>
    match from_chars_int (snd t) with
    | Some n => (Ok n, s')
    | None => (Err ENoNumber, enqueue s' t)
    end
  end.
(** The errors that end the loop over the subsections, 404-412 *)
Definition ends_table (e : errc) : bool :=
  match e with ENoNumber | EInvalidXRef | EUnexpectedEOF => true | _ => false end.
(** 375-418: [k] subsections are left until MAX_XREF_SESSION_COUNT (512); the device is read past the queue by
    ReadXRefSubsection *)
Fixpoint read_sections (k : nat) (buf : nat) (magic : Z) (s : tst) (es : rents) : res unit * tst * rents :=
  match k with
  | O => (Err ENoEOFToken, s, es)
  | S k' =>
    let '(peeked, s0) :=
      match next_token buf s with
      | Some (t, s') => (beq (snd t) (bs "trailer"), enqueue s' t)
      | None => (false, s)
      end in
    if peeked then (Ok tt, s0, es)
    else
      let ended (e : errc) (s : tst) (es : rents) : res unit * tst * rents :=
        if ends_table e then (Ok tt, s, es) else (Err e, s, es) in
      match next_number buf s0 with
      | (Ok first, s1) =>
        match next_number buf s1 with
        | (Ok count, s2) =>
          let '(r, inp, es') := read_subsection first count magic (tin s2) es in
          let s3 := mk_tst (tq s2) inp in
          match r with
          | Ok _ => read_sections k' buf magic s3 es'
          | Err e => ended e s3 es'
          | UB => (UB, s3, es')
          | Fuel => (Fuel, s3, es')
          end
        | (Err e, s2) => ended e s2 es
        | (UB, s2) => (UB, s2, es)
        | (Fuel, s2) => (Fuel, s2, es)
        end
      | (Err e, s1) => ended e s1 es
      | (UB, s1) => (UB, s1, es)
      | (Fuel, s1) => (Fuel, s1, es)
      end
  end.
(** 357-418: the keyword, then the subsections. None: it is not a table (a stream is tried). *)
Definition read_table (buf : nat) (magic : Z) (s : tst) (es : rents) : option (res unit * tst * rents) :=
  match next_token buf s with
  | None => Some (Err ENoXRef, s, es)
  | Some (t, s') =>
    if beq (snd t) (bs "xref") then Some (read_sections 512 buf magic s' es) else None
  end.

(** ** Cross-reference streams *)

(** The memory of AS_BIG_ENDIAN(v), PdfDeclarationsPrivate.h:30-60, on either byte order of the host *)
Definition mem_be32 (v : Z) : list Z := [v / 2 ^ 24 mod 256; v / 2 ^ 16 mod 256; v / 2 ^ 8 mod 256; v mod 256].
Definition mem_be16 (v : Z) : list Z := [v / 256 mod 256; v mod 256].
(** PdfXRefStream.cpp:66-92 WriteXRefEntry: one byte, four bytes, two bytes (PdfXRefStream.h:48-56); the offset and
    the number are cut to uint32_t. XRefEntryType Free is 0, InUse 1. *)
Definition entry_raw (e : xent) : list Z :=
  match e with
  | XFree n g => 0 :: mem_be32 (u32 n) ++ mem_be16 (u16 g)
  | XUsed off g => 1 :: mem_be32 (u32 off) ++ mem_be16 (u16 g)
  end.
(** 57-64 WriteSubSection *)
Definition stream_index (secs : list section) : list Z := flat_map (fun x => [fst (fst x); snd (fst x)]) secs.
Definition entry_ref (x : Z * xent) : ref := (fst x, match snd x with XFree _ g => g | XUsed _ g => g end).
(** 74-75 m_xrefStreamEntryIndex: the last entry with the reference of the stream object, -1 if there is none *)
Fixpoint last_index (me : ref) (i : Z) (l : list (Z * xent)) (found : Z) : Z :=
  match l with
  | [] => found
  | x :: t => last_index me (i + 1) t (if ref_eqb (entry_ref x) me then i else found)
  end.
(** 103-106: Variant of that entry becomes the offset of the stream object, a uint32_t (the type is kept) *)
Definition with_variant (v : Z) (e : xent) : xent :=
  match e with XFree _ g => XFree v g | XUsed _ g => XUsed v g end.
Definition patch (i : nat) (v : Z) (l : list (Z * xent)) : list (Z * xent) :=
  match nth_error l i with Some (n, e) => set_nth i (n, with_variant v e) l | None => l end.
(** 94-116 EndWriteImpl: the data of the stream, [me] is its reference and [off] the position in the device; without
    an entry for it m_rawEntries[-1] is written *)
Definition stream_data (me : ref) (off : Z) (secs : list section) : res (list Z) :=
  let flat := flat_map (fun x : section => snd x) secs in
  let i := last_index me 0 flat (-1) in
  if i <? 0 then UB
  else Ok (flat_map (fun x => entry_raw (snd x)) (patch (Z.to_nat i) (u32 off) flat)).

(** PdfXRefStreamParserObject.cpp:143-163: a field of [w] bytes. [mem] is the memory from the cursor to the
    terminating NUL of the string behind charbuff; reading further is undefined. *)
Fixpoint read_field (w : nat) (acc : Z) (mem : list Z) : res (Z * list Z) :=
  match w with
  | O => Ok (acc, mem)
  | S w' => match mem with b :: t => read_field w' (u64 (acc * 2 ^ 8) + b) t | [] => UB end
  end.
Definition read_width (w : Z) (mem : list Z) : res (Z * list Z) :=
  if 8 <? w then Err EInvalidXRefStream else read_field (Z.to_nat w) 0 mem.
(** 140-204 readXRefStreamEntry. On InvalidXRefType the entry stays marked as parsed; the error is not caught before
    the entries are cleared, so this is left out. *)
Definition read_raw (w0 w1 w2 : Z) (mem : list Z) : res rent :=
  do p0 <- read_width w0 mem;
  do p1 <- read_width w1 (snd p0);
  do p2 <- read_width w2 (snd p1);
  let t := if w0 =? 0 then 1 else fst p0 in
  if t =? 0 then Ok (RFree (fst p1) (u32 (fst p2)))
  else if t =? 1 then Ok (RUsed (fst p1) (u32 (fst p2)))
  else if t =? 2 then Ok (RComp (fst p1) (u32 (fst p2)))
  else Err EInvalidXRefType.
(** 97-111: [n] entries left, [i] is objIndex (uint32_t, it wraps); the cursor is compared with the end of the data
    before each entry *)
Fixpoint read_raws (n : nat) (i : Z) (w0 w1 w2 : Z) (mem : list Z) (es : rents) : res (list Z * rents) :=
  match n with
  | O => Ok (mem, es)
  | S n' =>
    match mem with
    | [] | [_] => Err ENoXRef
    | _ =>
      do es' <- match nth_error es (Z.to_nat (u32 i)) with
                | Some None => do e <- read_raw w0 w1 w2 mem; Ok (set_nth (Z.to_nat (u32 i)) (Some e) es)
                | _ => Ok es
                end;
      read_raws n' (i + 1) w0 w1 w2 (skipn (Z.to_nat (w0 + w1 + w2)) mem) es'
    end
  end.
(** 88-111: the pairs of /Index; first + count is a signed addition, the loop counts an unsigned of 32 bits *)
Fixpoint read_pairs (idx : list Z) (w0 w1 w2 : Z) (mem : list Z) (es : rents) : res rents :=
  match idx with
  | first :: count :: t =>
    if negb (int64_ok (first + count)) then UB
    else
      do es1 <- enlarge (first + count) es;
      do p <- read_raws (Z.to_nat (u32 count)) (u32 first) w0 w1 w2 mem es1;
      read_pairs t w0 w1 w2 (fst p) (snd p)
  | _ => Ok es
  end.
(** 61-112 parseStream, 114-138 getIndices (the indices and the three numbers of /W are given) *)
Definition parse_stream (w0 w1 w2 : Z) (idx : list Z) (data : list Z) (es : rents) : res rents :=
  if (w0 <? 0) || (w1 <? 0) || (w2 <? 0) then Err ENoXRef
  else if 2 ^ 63 - 1 <? w0 + w1 + w2 then Err ENoXRef
  else if Nat.odd (length idx) then Err ENoXRef
  else read_pairs idx w0 w1 w2 (data ++ [0]) es.
