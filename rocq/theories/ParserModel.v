(** The reading of a document's structure, base/PdfParser.cpp: header, end-of-file marker, startxref, the chain of
    cross-reference sections and trailers. *)
From Coq Require Import String.
From Verif Require Import Base TokModel DictProofs ObjSpec UtilModel XrefModel.
Local Open Scope Z_scope.
Local Notation dict := (list (list Z * obj)) (only parsing).

(** The device is a buffer in memory (SpanStreamDevice); its errors on seeking are those of PdfStreamDevice.cpp:92-139.
    [penv] is what does not change while the sections are read: the data, m_StrictParsing, m_magicOffset,
    m_PdfVersion >= 1.3, and [pstm d off]: the object at [off] as a cross-reference stream, i.e. its dictionary and decoded
    data or an error (ReadXRefStreamContents 551-563 with the load of PdfXRefStreamParserObject.cpp:31-58), [d] levels of
    recursion being left. *)
Record penv := mk_penv { pfile : list Z; pstrict : bool; pmagic : Z; pv13 : bool; pstm : nat -> Z -> res (dict * list Z) }.

(** ** Header *)

(** 1005-1044 ReadMagicWord: one character; None: the word is complete *)
Definition magic_word : list Z := bs "%PDF-".
Definition read_magic (c : Z) (cursor : nat) : option nat :=
  if c =? nth cursor magic_word (-1) then (if Nat.eqb cursor 4 then None else Some (S cursor)) else Some O.
(** 165-175: the data after the word *)
Fixpoint scan_magic (cursor : nat) (l : list Z) : option (list Z) :=
  match l with
  | [] => None
  | c :: r => match read_magic c cursor with None => Some r | Some i => scan_magic i r end
  end.
(** 163-190 IsPdfFile: m_magicOffset and the version *)
Definition is_pdf_file (file : list Z) : option (Z * version) :=
  match scan_magic 0 file with
  | None => None
  | Some r =>
    if Nat.ltb (length r) 3 then None
    else match get_version (firstn 3 r) with
         | VUnknown => None
         | v => Some (Z.of_nat (length file) - Z.of_nat (length r) + 3 - 8, v)
         end
  end.
Definition at_least_13 (v : version) : bool := match v with VUnknown | V10 | V11 | V12 => false | _ => true end.

(** ** End of file and startxref *)

Fixpoint starts_with (w l : list Z) : bool :=
  match w, l with
  | [], _ => true
  | a :: w', b :: l' => (a =? b) && starts_with w' l'
  | _, [] => false
  end.
(** backward search: the last of the positions below [n] at which the word stands *)
Fixpoint search_back (w l : list Z) (n : nat) : option nat :=
  match n with
  | O => None
  | S n' => if starts_with w (skipn n' l) then Some n' else search_back w l n'
  end.
(** 930-974 CheckEOFMarker: m_LastEOFOffset *)
Definition eof_marker : list Z := bs "%%EOF".
Definition check_eof (strict : bool) (file : list Z) : res Z :=
  if Nat.ltb (length file) 5 then Err EValueOutOfRange
  else if strict then (if starts_with eof_marker (skipn (length file - 5) file) then Ok 0 else Err ENoEOFToken)
  else match search_back eof_marker file (length file - 4) with
       | Some p => Ok (Z.of_nat (length file) - Z.of_nat p + 1)
       | None => Err ENoEOFToken
       end.
(** 835-890 FindTokenBackward and FindToken2 from the position [pos]: the new position. A word at the very start of the
    buffer is an error; a word that is not there is taken as being one before the buffer (or further, if the buffer is
    shorter than the word). *)
Definition find_back (file w : list Z) (range : nat) (pos : Z) : res Z :=
  let size := Nat.min (Z.to_nat pos) range in
  let start := (Z.to_nat pos - size)%nat in
  let buf := firstn size (skipn start file) in
  match search_back w buf (S size - length w) with
  | Some O => Err EInternalLogic
  | Some i => Ok (Z.of_nat start + Z.of_nat i)
  | None => let p := Z.of_nat start + (if Nat.ltb size (length w) then Z.of_nat size - Z.of_nat (length w) else -1) in
            if p <? 0 then Err EValueOutOfRange else Ok p
  end.
(** IsNextToken, PdfTokenizer.cpp:179-189 *)
Definition is_next (w : list Z) (s : tst) : res bool * tst :=
  match next_token 4095 s with
  | None => (Err EUnexpectedEOF, s)
  | Some (t, s') => (Ok (beq (snd t) w), s')
  end.
(** 299-314 FindXRef with the queue [q] of the tokenizer: the number after startxref, moved by the offset of the header *)
Definition find_xref (strict : bool) (magic : Z) (file : list Z) (last : Z) (q : list token) : res Z * tst :=
  let pos := Z.of_nat (length file) - last in
  let fail (e : res bool) (s : tst) : res Z * tst :=
    (match e with Err x => Err x | UB => UB | _ => Fuel end, s) in
  let number (s : tst) : res Z * tst :=
    match next_number 4095 s with
    | (Ok n, s') => (Ok (u64 (n + magic)), s')
    | r => r
    end in
  if pos <? 0 then (Err EValueOutOfRange, mk_tst q [])
  else
    match find_back file (bs "startxref") 512 pos with
    | Ok p =>
      match is_next (bs "startxref") (mk_tst q (skipn (Z.to_nat p) file)) with
      | (Ok true, s) => number s
      | (Ok false, s) =>
        if strict then (Err ENoXRef, s)
        else match find_back file (bs "startref") 512 pos with
             | Ok p' =>
               match is_next (bs "startref") (mk_tst (tq s) (skipn (Z.to_nat p') file)) with
               | (Ok true, s') => number s'
               | (Ok false, s') => (Err ENoXRef, s')
               | (e, s') => fail e s'
               end
             | Err e => (Err e, s) | UB => (UB, s) | Fuel => (Fuel, s)
             end
      | (e, s) => fail e s
      end
    | Err e => (Err e, mk_tst q []) | UB => (UB, mk_tst q []) | Fuel => (Fuel, mk_tst q [])
    end.

(** ** The chain of sections *)

(** m_visitedXRefOffsets, m_entries, m_Trailer, the queue of m_tokenizer and m_LastEOFOffset; [slog] is not in the code:
    the offsets of the sections that have been read, the last one first *)
Record pst := mk_pst { visited : list Z; ents : rents; trail : option dict; queue : list token; lasteof : Z; slog : list Z }.
Definition with_queue (q : list token) (st : pst) : pst := mk_pst (visited st) (ents st) (trail st) q (lasteof st) (slog st).
Definition with_ents (es : rents) (st : pst) : pst := mk_pst (visited st) es (trail st) (queue st) (lasteof st) (slog st).
Definition visit (off : Z) (st : pst) : pst := mk_pst (off :: visited st) (ents st) (trail st) (queue st) (lasteof st) (slog st).
Definition log (off : Z) (st : pst) : pst := mk_pst (visited st) (ents st) (trail st) (queue st) (lasteof st) (off :: slog st).

(** 192-215 MergeTrailer *)
Definition merged_keys : list (list Z) := [bs "Size"; bs "Root"; bs "Encrypt"; bs "Info"; bs "ID"].
Definition merge_key (new : dict) (cur : dict) (k : list Z) : dict :=
  match dict_get k new, dict_get k cur with
  | Some v, None => dict_add k v cur
  | _, _ => cur
  end.
Definition merge_trailer (new cur : dict) : dict := fold_left (merge_key new) merged_keys cur.
(** 226-238 and 565-573: the first trailer is kept, the others are merged into it *)
Definition take_trailer (d : dict) (st : pst) : pst :=
  mk_pst (visited st) (ents st) (Some match trail st with None => d | Some c => merge_trailer d c end) (queue st) (lasteof st) (slog st).

(** FindKey (PdfDictionary.cpp:96-118) before any object is loaded: a reference leads nowhere *)
Definition find_direct (d : dict) (k : list Z) : option obj :=
  match dict_get k d with Some (ORef _ _) => None | r => r end.
(** FindKeyAs<int64_t> with a default *)
Definition key_number (d : dict) (k : list Z) (def : Z) : res Z :=
  match find_direct d k with
  | None => Ok def
  | Some (ONum n) => Ok n
  | Some _ => Err EInvalidDataType
  end.
Definition has_key (d : dict) (k : list Z) : bool := match dict_get k d with Some _ => true | None => false end.

(** The trailer dictionary, PdfParserObject.cpp:71-79 and 111-127, from a new tokenizer at the position of the device; [d]
    levels of recursion are left *)
Definition read_trailer (d : nat) (inp : list Z) : res dict :=
  match next_token 4095 (mk_tst [] inp) with
  | None => Err EUnexpectedEOF
  | Some (t, _) =>
    if beq (snd t) (bs "endobj") then Err EInvalidDataType
    else match parse (mk_rp 4095 true d) inp with
         | Ok (Some (ODict m), _) => Ok m
         | Ok _ => Err EInvalidDataType
         | Err e => Err e
         | UB => UB
         | Fuel => Fuel
         end
  end.

(** PdfXRefStreamParserObject.cpp:50-51 and 221-226; FindKeyAs<double>, then a cast (numbers above 2^53 are exact here) *)
Definition stream_prev (d : dict) : res (option Z) :=
  if has_key d (bs "Prev") then
    do n <- match find_direct d (bs "Prev") with
            | None => Ok 0
            | Some (ONum n) => Ok n
            | Some (OReal m k) => Ok (Z.quot m (10 ^ Z.of_nat k))
            | Some _ => Err EInvalidDataType
            end;
    Ok (if n =? -1 then None else Some (u64 n))
  else Ok None.
(** 60-85 ReadXRefTable, 114-138 getIndices *)
Fixpoint numbers (l : list obj) : option (list Z) :=
  match l with
  | [] => Some []
  | ONum n :: t => match numbers t with Some r => Some (n :: r) | None => None end
  | _ => None
  end.
Definition stream_table (d : dict) (data : list Z) (es : rents) : res rents :=
  do size <- key_number d (bs "Size") 0;
  match find_direct d (bs "W") with
  | None => Err ENoObject
  | Some (OArr [ONum w0; ONum w1; ONum w2]) =>
    match dict_get (bs "Index") d with
    | None => parse_stream w0 w1 w2 [0; size] data es
    | Some (OArr l) => match numbers l with Some idx => parse_stream w0 w1 w2 idx data es | None => Err EInvalidDataType end
    | Some _ => Err ENoXRef
    end
  | Some _ => Err ENoXRef
  end.

Definition memz (x : Z) (l : list Z) : bool := existsb (Z.eqb x) l.
Inductive job := JTable (off : Z) | JTrailer (inp : list Z) | JStream (off : Z).

(** 340-355: the position at which a table is looked for. An offset beyond the file is replaced by that of the word xref
    nearest before startxref (the smaller buffer of the tokenizer afterwards is ignored). *)
Definition locate (E : penv) (off : Z) (st : pst) : res Z * list token :=
  if Z.of_nat (length (pfile E)) <? off then
    let '(r, s) := find_xref (pstrict E) (pmagic E) (pfile E) (lasteof st) (queue st) in
    match r with
    | Ok _ => (find_back (pfile E) (bs "xref") 2048 (Z.of_nat (length (pfile E)) - Z.of_nat (length (tin s))), tq s)
    | r => (r, tq s)
    end
  else (Ok off, queue st).

(** [d]: how often the recursion guard may still be entered.
    JTable: 316-432 ReadXRefContents; JTrailer: 217-297 ReadNextTrailer, [inp] is the data at the device's position;
    JStream: 547-604 ReadXRefStreamContents. positionAtEnd and readOnlyTrailer are false in all calls. *)
Fixpoint run (E : penv) (d : nat) (j : job) (st : pst) {struct d} : res unit * pst :=
  match d with
  | O => (Err EInvalidXRef, st)
  | S d' =>
    match j with
    | JTable off =>
      if memz off (visited st) then (Err EInvalidXRef, st)
      else
        let st1 := visit off st in
        match locate E off st1 with
        | (Ok p, q) =>
          match next_token 4095 (mk_tst q (skipn (Z.to_nat p) (pfile E))) with
          | None => (Err ENoXRef, with_queue q st1)
          | Some (t, s) =>
            if beq (snd t) (bs "xref") then
              let '(r, s2, es) := read_sections 512 4095 (pmagic E) s (ents st1) in
              let st2 := log p (with_ents es (with_queue (tq s2) st1)) in
              match r with
              | Ok _ => match run E d' (JTrailer (tin s2)) st2 with
                        | (Err ENoTrailer, st3) => (Ok tt, st3)
                        | r3 => r3
                        end
              | r => (r, st2)
              end
            else if pv13 E then run E d' (JStream p) (with_queue (tq s) st1)
            else (Err ENoXRef, with_queue (tq s) st1)
          end
        | (Err e, q) => (Err e, with_queue q st1)
        | (UB, q) => (UB, with_queue q st1)
        | (Fuel, q) => (Fuel, with_queue q st1)
        end
    | JTrailer inp =>
      match is_next (bs "trailer") (mk_tst (queue st) inp) with
      | (Ok true, s) =>
        let st1 := with_queue (tq s) st in
        match read_trailer d' (tin s) with
        | Ok t =>
          let st2 := take_trailer t st1 in
          let '(r, st3) :=
            if has_key t (bs "XRefStm") then
              match key_number t (bs "XRefStm") 0 with
              | Ok n => run E d' (JStream (u64 n)) st2
              | Err e => (Err e, st2) | UB => (UB, st2) | Fuel => (Fuel, st2)
              end
            else (Ok tt, st2) in
          match r with
          | Ok _ =>
            match find_direct t (bs "Prev") with
            | Some (ONum n) =>
              if (0 <? n) && negb (memz n (visited st3)) then run E d' (JTable n) st3 else (Ok tt, st3)
            | _ => (Ok tt, st3)
            end
          | r => (r, st3)
          end
        | Err e => (Err e, st1) | UB => (UB, st1) | Fuel => (Fuel, st1)
        end
      | (Ok false, s) => (Err ENoTrailer, with_queue (tq s) st)
      | (Err e, s) => (Err e, with_queue (tq s) st)
      | (UB, s) => (UB, with_queue (tq s) st)
      | (Fuel, s) => (Fuel, with_queue (tq s) st)
      end
    | JStream off =>
      match pstm E d' off with
      | Ok (t, data) =>
        match stream_prev t with
        | Ok prev =>
          let st1 := log off (take_trailer t st) in
          match stream_table t data (ents st1) with
          | Ok es =>
            let st2 := with_ents es st1 in
            match prev with
            | Some p => if p =? off then (Ok tt, st2)
                        else match run E d' (JTable p) st2 with
                             | (Err ENoNumber, st3) => (Ok tt, st3)
                             | r => r
                             end
            | None => (Ok tt, st2)
            end
          | Err e => (Err e, st1) | UB => (UB, st1) | Fuel => (Fuel, st1)
          end
        | Err e => (Err e, st) | UB => (UB, st) | Fuel => (Fuel, st)
        end
      | Err e => (Err e, st) | UB => (UB, st) | Fuel => (Fuel, st)
      end
    end
  end.

(** RecursionGuard: 256 levels *)
Definition levels : nat := 256.

(** ** The parser as an object *)

(** 51-70 Reset: neither m_visitedXRefOffsets nor the tokenizer is touched *)
Definition reset (st : pst) : pst := mk_pst (visited st) [] None (queue st) 0 (slog st).
(** A parser just constructed (PdfParser.cpp:37-45) *)
Definition new_parser : pst := mk_pst [] [] None [] 0 [].
(** 101-161 ReadDocumentStructure, after the header is known; 606-611: the trailer is used without a check *)
Definition read_structure (E : penv) (st : pst) : res unit * pst :=
  match check_eof (pstrict E) (pfile E) with
  | Ok last =>
    let st1 := mk_pst (visited st) (ents st) (trail st) (queue st) last (slog st) in
    let '(r, s) := find_xref (pstrict E) (pmagic E) (pfile E) last (queue st1) in
    let st2 := with_queue (tq s) st1 in
    match r with
    | Ok off =>
      match run E levels (JTable off) st2 with
      | (Ok _, st3) =>
        match trail st3 with
        | None => (UB, st3)
        | Some t => match key_number t (bs "Size") (-1) with
                    | Ok _ => (Ok tt, st3)
                    | Err e => (Err e, st3) | UB => (UB, st3) | Fuel => (Fuel, st3)
                    end
        end
      | r3 => r3
      end
    | Err e => (Err e, st2) | UB => (UB, st2) | Fuel => (Fuel, st2)
    end
  | Err e => (Err e, st) | UB => (UB, st) | Fuel => (Fuel, st)
  end.
(** 72-99 Parse up to the objects: a file [file] with the cross-reference streams [stm] *)
Definition parse_file (strict : bool) (file : list Z) (stm : nat -> Z -> res (dict * list Z)) (st : pst) : res unit * pst :=
  let st0 := reset st in
  match is_pdf_file file with
  | None => (Err ENoPdfFile, reset st0)
  | Some (magic, v) =>
    match read_structure (mk_penv file strict magic (at_least_13 v) stm) st0 with
    | (Err e, st1) => (Err e, reset st1)
    | r => r
    end
  end.
