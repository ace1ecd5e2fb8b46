(** Extraction of text: src/pdfmm/base/PdfPage_TextExtraction.cpp. The contents are those that PdfContentsReader gives (ContentsModel).
    A text is the list of its code points, and positions in a text count code points (in the code the text is UTF-8, and they count
    bytes). Doubles are rational numbers. std::runtime_error is the error EInternalLogic. Warnings to the log and the bounding boxes are
    left out. *)
From Coq Require Import String QArith.
From Verif Require Import Base TokModel RectModel OpTables ContentsModel.
Local Open Scope Z_scope.

(** What is asked of a font: the code points and the width (PdfFont::GetCIDLengthRaw) of each code of a string (PdfStringScanContext::TryScan,
    PdfEncoding.cpp 706-734), and the width of a space (PdfFont::initWordSpacingLength) *)
Record font := mk_font { f_scan : list Z -> list (list Z * Q); f_space : Q }.
(** What the document and the libraries give: PdfCanvas::GetFromResources and PdfFontManager::GetLoadedFont for a font (no such resource;
    a resource that is no font), PdfString::GetString, std::sqrt of the sum of two squares (Vector2::GetLength) and std::regex_search *)
Record env := mk_env { e_font : Z -> list Z -> option (option font); e_plain : list Z -> list Z; e_len : Q -> Q -> Q;
  e_regex : bool -> list Z -> list Z -> bool }.

(** ** Texts *)

(** PdfDeclarationsPrivate.cpp 519-557 *)
Definition white (c : Z) : bool :=
  existsb (Z.eqb c) [32; 160; 5760; 8192; 8193; 8194; 8195; 8196; 8197; 8198; 8199; 8200; 8201; 8202; 8239; 8287; 12288; 8232; 8233; 9; 10; 11; 12; 13; 133].
(** 559-603 isStringDelimter and 514-517 *)
Definition delimiter (c : Z) : bool :=
  white c || (33 <=? c) && (c <=? 47) || (58 <=? c) && (c <=? 64) || (91 <=? c) && (c <=? 96) || (123 <=? c) && (c <=? 126).
(** 990-996 ToLower: the bytes of other code points are no letters *)
Definition lower (c : Z) : Z := if (65 <=? c) && (c <=? 90) then c + 32 else c.
(** 619-645 TrimSpacesEnd: how many code points stay; [n] are before, [first] is the first of the white ones before *)
Fixpoint trim_end (t : list Z) (n : nat) (first : option nat) : nat :=
  match t with
  | [] => match first with Some k => k | None => n end
  | c :: t => trim_end t (S n) (if white c then match first with Some k => Some k | None => Some n end else None)
  end.
(** std::string::find *)
Fixpoint prefix (p t : list Z) : bool :=
  match p, t with [], _ => true | a :: p, b :: t => (a =? b) && prefix p t | _ :: _, [] => false end.
Fixpoint find_text (p t : list Z) : option nat :=
  if prefix p t then Some 0%nat else match t with [] => None | _ :: t => match find_text p t with Some n => Some (S n) | None => None end end.

(** ** States *)

(** 36-55 TextState: T_rm, CTM, T_m, T_lm, T_l, the font, its size, the spacings of PdfState, WordSpacingVectorRaw.X, WordSpacingLength.
    PdfState.FontScale is 1 *)
Record tstate := mk_ts { trm : matrix; ctm : matrix; tm : matrix; tlm : matrix; tlead : Q; tfont : option font; tsize : Q; tchar : Q; tword : Q;
  wraw : Q; wlen : Q }.
Definition start : tstate := mk_ts identity identity identity identity 0 None (-1) 0 0 0 0.
(** PdfMathBase.h 26-63: Apply<Tx> and Apply<Ty> *)
Definition apply_tx (m : matrix) (v : Q) : matrix := mk_matrix (ma m) (mb m) (mc m) (md m) (v * ma m + me m) (mf m).
Definition apply_ty (m : matrix) (v : Q) : matrix := mk_matrix (ma m) (mb m) (mc m) (md m) (me m) (v * md m + mf m).
(** GetScalingRotation, GetTranslationVector *)
Definition linear (m : matrix) : matrix := mk_matrix (ma m) (mb m) (mc m) (md m) 0 0.
Definition origin (m : matrix) : Q * Q := (me m, mf m).
Definition vlen (e : env) (v : Q * Q) : Q := e_len e (fst v) (snd v).
(** 1249-1252 ComputeT_rm *)
Definition set_trm (s : tstate) : tstate :=
  mk_ts (mult (tm s) (ctm s)) (ctm s) (tm s) (tlm s) (tlead s) (tfont s) (tsize s) (tchar s) (tword s) (wraw s) (wlen s).
(** 1244-1247 ComputeSpaceLength *)
Definition set_space (e : env) (s : tstate) : tstate :=
  mk_ts (trm s) (ctm s) (tm s) (tlm s) (tlead s) (tfont s) (tsize s) (tchar s) (tword s) (wraw s) (vlen e (image (linear (tm s)) (wraw s, 0%Q))).
(** 1238-1242 ComputeDependentState *)
Definition dependent (e : env) (s : tstate) : tstate := set_trm (set_space e s).
Definition set_tm (s : tstate) (m : matrix) : tstate :=
  mk_ts (trm s) (ctm s) m (tlm s) (tlead s) (tfont s) (tsize s) (tchar s) (tword s) (wraw s) (wlen s).
Definition set_lines (s : tstate) (m : matrix) : tstate :=
  mk_ts (trm s) (ctm s) m m (tlead s) (tfont s) (tsize s) (tchar s) (tword s) (wraw s) (wlen s).
Definition set_tl (s : tstate) (q : Q) : tstate :=
  mk_ts (trm s) (ctm s) (tm s) (tlm s) q (tfont s) (tsize s) (tchar s) (tword s) (wraw s) (wlen s).
Definition set_spacing (s : tstate) (c w : Q) : tstate :=
  mk_ts (trm s) (ctm s) (tm s) (tlm s) (tlead s) (tfont s) (tsize s) c w (wraw s) (wlen s).
Definition set_ctm (s : tstate) (m : matrix) : tstate :=
  mk_ts (trm s) m (tm s) (tlm s) (tlead s) (tfont s) (tsize s) (tchar s) (tword s) (wraw s) (wlen s).
Definition set_font (s : tstate) (f : option font) (size w : Q) : tstate :=
  mk_ts (trm s) (ctm s) (tm s) (tlm s) (tlead s) f size (tchar s) (tword s) w (wlen s).
(** PdfFont.cpp 1008-1014 getGlyphLength, with the scale 1 *)
Definition glyph_length (w : Q) (s : tstate) : Q := (w * tsize s + tchar s)%Q.

(** ** Strings *)

(** 57-79 StatefulString: String, State, RawLengths, Lengths and StringPositions. Position is the translation of the state's T_rm *)
Record sstr := mk_ss { ss_text : list Z; ss_state : tstate; ss_raw : list Q; ss_len : list Q; ss_pos : list Z }.
Definition ss_at (s : sstr) : Q * Q := origin (trm (ss_state s)).
(** 709-722 and 841-851 *)
Definition new_ss (e : env) (t : list Z) (s : tstate) (raw : list Q) (pos : list Z) : sstr :=
  mk_ss t s raw (map (fun r => vlen e (image (linear (ctm s)) (r, 0%Q))) raw) pos.
Definition is_white (s : sstr) : bool := forallb white (ss_text s).
Definition qsum (l : list Q) : Q := fold_right Qplus 0%Q l.
(** PdfFont.cpp 321-348 TryScanString; texts are shorter than 2^32 *)
Fixpoint offsets (n : Z) (l : list (list Z * Q)) : list Z :=
  match l with [] => [] | (t, _) :: l => n :: offsets (n + Z.of_nat (length t)) l end.
Definition scan (f : font) (s : tstate) (str : list Z) : list Z * list Q * list Z :=
  let l := f_scan f str in (concat (map fst l), map (fun g => glyph_length (snd g) s) l, offsets 0 l).
(** 681-707 decodeString. Vectors that a string has been made of are empty afterwards, and those of a text without code points are taken
    to be so *)
Definition decode (e : env) (hex : bool) (str : list Z) (s : tstate) : option (list Z * list Q * list Z) :=
  match tfont s with
  | Some f => Some (scan f s str)
  | None => if hex then None else
            let t := e_plain e str in Some (t, map (fun _ => 0%Q) t, map Z.of_nat (seq 0 (length t)))
  end.
(** 724-771 GetTrimmedBegin *)
Fixpoint count_white (t : list Z) : nat := match t with c :: t => if white c then S (count_white t) else 0%nat | [] => 0%nat end.
Fixpoint before (pos : list Z) (len : list Q) (lim : Z) (i : nat) (acc : Q) : nat * Q :=
  match pos, len with
  | p :: pos, l :: len => if lim <=? p then (i, acc) else before pos len lim (S i) (acc + l)%Q
  | p :: _, [] => if lim <=? p then (i, acc) else (0%nat, acc)
  | [], _ => (0%nat, acc)
  end.
Definition trimmed_begin (e : env) (s : sstr) : sstr :=
  let n := count_white (ss_text s) in
  let '(i, st) := match n with
                  | O => (0%nat, ss_state s)
                  | _ => let '(i, l) := before (ss_pos s) (ss_len s) (Z.of_nat n) 0 0%Q in
                         (i, set_trm (set_tm (ss_state s) (apply_tx (tm (ss_state s)) l)))
                  end in
  new_ss e (skipn n (ss_text s)) st (skipn i (ss_raw s)) (map (fun p => u32 (p - Z.of_nat n)) (skipn i (ss_pos s))).
(** 773-801 *)
Definition begins_white (s : sstr) : bool := existsb white (ss_text s).
Definition ends_white (s : sstr) : bool := match rev (ss_text s) with c :: _ => white c | [] => false end.
(** 803-821 GetTrimmedEnd; [upto] is positionIndexLimit: the index after the last position below the limit, or the size *)
Fixpoint last_below (pos : list Z) (lim : Z) (i : nat) : option nat :=
  match pos with
  | [] => None
  | p :: pos => match last_below pos lim (S i) with Some k => Some k | None => if p <? lim then Some (S i) else None end
  end.
Definition trimmed_end (e : env) (s : sstr) : sstr :=
  let n := trim_end (ss_text s) 0 None in
  let k := if Nat.eqb n (length (ss_text s)) then length (ss_pos s)
           else match last_below (ss_pos s) (Z.of_nat n) 0 with Some k => k | None => length (ss_pos s) end in
  new_ss e (firstn n (ss_text s)) (ss_state s) (firstn k (ss_len s)) (firstn k (ss_pos s)).
(** 1390-1413 getSubstringIndices *)
Fixpoint first_from (pos : list Z) (lim : Z) (i : Z) : Z :=
  match pos with [] => 2 ^ 32 - 1 | p :: pos => if lim <=? p then i else first_from pos lim (i + 1) end.
Definition indices (pos : list Z) (lo hi : Z) : Z * Z :=
  (first_from pos lo 0, match last_below pos hi 0 with Some k => Z.of_nat k | None => 0 end).
Definition slice {A} (l : list A) (i j : Z) : list A := firstn (Z.to_nat (j - i)) (skipn (Z.to_nat i) l).
(** 1122-1179 splitStringBySpaces. [cut] is pushString: an iterator range whose end is before its begin is undefined *)
Definition cut (e : env) (s : sstr) (t : list Z) (st : tstate) (lo hi : Z) : res (sstr * tstate) :=
  let (i, j) := indices (ss_pos s) lo hi in
  if j <? i then UB else
  let len := slice (ss_len s) i j in
  Ok (new_ss e t st len (map (fun p => u32 (p - lo)) (slice (ss_pos s) i j)), set_trm (set_tm st (apply_tx (tm st) (qsum len)))).
(** [cur] is separatedStr with its end first, [n] is previousPos, [prev] is isPreviousWhiteSpace *)
Fixpoint split (e : env) (s : sstr) (t cur : list Z) (st : tstate) (lo n : Z) (prev : bool) : res (list sstr) :=
  match t with
  | [] => match cur with [] => Ok [] | _ => do (x, _) <- cut e s (rev cur) st lo (Z.of_nat (length (ss_text s))); Ok [x] end
  | c :: t =>
    match cur with
    | _ :: _ =>
      if Bool.eqb (white c) prev then split e s t (c :: cur) st lo (n + 1) (white c)
      else do (x, st) <- cut e s (rev cur) st lo n; do l <- split e s t [c] st n (n + 1) (white c); Ok (x :: l)
    | [] => split e s t [c] st lo (n + 1) (white c)
    end
  end.
Definition split_string (e : env) (s : sstr) : res (list sstr) := split e s (ss_text s) [] (ss_state s) 0 0 true.

(** ** Chunks *)

Definition chunk : Type := list sstr.
Definition white_chunk (c : chunk) : bool := forallb is_white c.
(** 1092-1119 splitChunkBySpaces: consecutive strings of one kind; [cur] is separatedChunk *)
Fixpoint group (l : list sstr) (cur : chunk) (prev : bool) : list chunk :=
  match l with
  | [] => match cur with [] => [] | _ => [cur] end
  | s :: l =>
    match cur with
    | [] => group l [s] (is_white s)
    | _ => if Bool.eqb (is_white s) prev then group l (cur ++ [s]) (is_white s) else cur :: group l [s] (is_white s)
    end
  end.
Fixpoint split_chunk (e : env) (c : chunk) : res (list chunk) :=
  match c with
  | [] => Ok []
  | s :: c => do l <- split_string e s; do r <- split_chunk e c; Ok (group l [] true ++ r)
  end.
(** 1181-1220 *)
Fixpoint trim_begin_chunk (e : env) (c : chunk) : chunk :=
  match c with [] => [] | s :: r => if is_white s then trim_begin_chunk e r else trimmed_begin e s :: r end.
Fixpoint trim_end_rev (e : env) (c : chunk) : chunk :=
  match c with [] => [] | s :: r => if is_white s then trim_end_rev e r else trimmed_end e s :: r end.
Definition trim_end_chunk (e : env) (c : chunk) : chunk := rev (trim_end_rev e (rev c)).
(** 508-541: the white space at the beginning and the end; no chunks: nothing is left *)
Fixpoint trim_begin (e : env) (l : list chunk) : list chunk :=
  match l with [] => [] | c :: r => if white_chunk c then trim_begin e r else trim_begin_chunk e c :: r end.
Fixpoint trim_tail_rev (e : env) (l : list chunk) : list chunk :=
  match l with [] => [] | c :: r => if white_chunk c then trim_tail_rev e r else trim_end_chunk e c :: r end.
Definition trim (e : env) (l : list chunk) : list chunk := rev (trim_tail_rev e (rev (trim_begin e l))).
(** 1265-1287 processChunks: the text, the positions, the strings and the addresses (string, glyph) *)
Fixpoint addresses (k : nat) (off : Z) (l : list sstr) : list Z * list (nat * nat) :=
  match l with
  | [] => ([], [])
  | s :: l =>
    let '(p, a) := addresses (S k) (u32 (off + Z.of_nat (length (ss_text s)))) l in
    (map (fun q => u32 (off + q)) (ss_pos s) ++ p, map (fun i => (k, i)) (seq 0 (length (ss_pos s))) ++ a)
  end.
Definition text_of (l : list chunk) : list Z := concat (map ss_text (concat l)).
(** 1290-1323 computeLength *)
Definition vsub (a b : Q * Q) : Q * Q := (fst a - fst b, snd a - snd b)%Q.
Definition compute_length (e : env) (strs : list sstr) (adr : list (nat * nat)) (lo hi : Z) : res Q :=
  if (lo <? 0) || (hi <? 0) || (Z.of_nat (length adr) <=? lo) || (Z.of_nat (length adr) <=? hi) then UB else
  match nth_error adr (Z.to_nat lo), nth_error adr (Z.to_nat hi) with
  | Some (fs, fg), Some (ts, tg) =>
    match nth_error strs fs, nth_error strs ts with
    | Some f, Some t =>
      if Nat.ltb tg (length (ss_len t)) && Nat.leb fg (length (ss_len f)) then
        if Nat.eqb fs ts then Ok (qsum (firstn (S tg) (ss_len f)))
        else let a := ss_at f in let b := ss_at t in
             Ok (vlen e (vsub ((fst a + qsum (firstn fg (ss_len f)))%Q, snd a) ((fst b + qsum (firstn (S tg) (ss_len t)))%Q, snd b)))
      else UB
    | _, _ => UB
    end
  | _, _ => UB
  end.
(** 1327-1365 isMatchWholeWordSubstring *)
Definition word_at (t p : list Z) : option nat :=
  match find_text p t with
  | None => None
  | Some n =>
    let prev := match rev (firstn n t) with c :: _ => delimiter c | [] => true end in
    let next := match skipn (n + length p) t with c :: _ => delimiter c | [] => true end in
    if prev && next then Some n else None
  end.

(** ** Entries *)

(** 81-91, 1415-1437; ComputeBoundingBox is left out *)
Record options := mk_op { o_case : bool; o_trim : bool; o_words : bool; o_whole : bool; o_regex : bool; o_raw : bool; o_sub : bool }.
Definition options_of (flags : Z) : res options :=
  let b n := negb (Z.land flags n =? 0) in
  if b 16 && (b 8 || b 128) then Err ENotImplemented
  else Ok (mk_op (b 1) (negb (b 2) || b 4) (b 4) (b 8) (b 16) (b 64) (b 128)).
Record entry := mk_entry { en_text : list Z; en_x : Q; en_y : Q; en_len : Q }.
Record args := mk_args { a_pattern : list Z; a_opts : options; a_clip : option rect; a_rotation : option matrix }.
(** 559-629: whether the pattern matches; the beginning of the text that is taken, if a part is *)
Definition matches (e : env) (a : args) (t : list Z) : option (option nat) :=
  let p := a_pattern a in let o := a_opts a in
  let low x := if o_case o then map lower x else x in
  if o_regex o then if e_regex e (o_case o) p t then Some None else None
  else if o_sub o then
    match (if o_whole o then word_at (low t) (low p) else find_text (low p) (low t)) with Some n => Some (Some n) | None => None end
  else if (if o_whole o then beq (low t) (low p) else match find_text (low p) (low t) with Some _ => true | None => false end) then Some None else None.
(** 506-663 addEntryChunk *)
Definition add_entry_chunk (e : env) (a : args) (l : list chunk) : res (list entry) :=
  let o := a_opts a in
  match (if o_trim o then trim e l else l) with
  | [] => if o_trim o then Ok [] else UB
  | [] :: _ => UB
  | ((first :: _) :: _) as l =>
    let (x, y) := ss_at first in
    if match a_clip a with Some r => negb (contains r x y) | None => false end then Ok []
    else
      let t := text_of l in
      let strs := concat l in
      let (pos, adr) := addresses 0 0 strs in
      let n := Z.of_nat (length adr) in
      do r <- match a_pattern a with
              | [] => Ok (Some (t, 0, n, trm (ss_state first)))
              | p =>
                match matches e a t with
                | None => Ok None
                | Some None => Ok (Some (t, 0, n, trm (ss_state first)))
                | Some (Some k) =>
                  let (i, j) := indices pos (Z.of_nat k) (Z.of_nat (k + length p)) in
                  let t := firstn (length p) (skipn k t) in
                  if i =? 0 then Ok (Some (t, i, j, trm (ss_state first)))
                  else do w <- compute_length e strs adr 0 (i - 1); Ok (Some (t, i, j, apply_tx (trm (ss_state first)) w))
                end
              end;
      match r with
      | None => Ok []
      | Some (t, i, j, m) =>
        do w <- compute_length e strs adr i (j - 1);
        let (x, y) := match a_rotation a with
                      | Some rot => if o_raw o then origin m else image rot (origin m)
                      | None => origin m
                      end in
        Ok [mk_entry t x y w]
      end
  end.
(** 441-504 addEntry: the batches of words; [cur] is currentBatch, [ws] are the white chunks before *)
Fixpoint batches (l : list chunk) (cur ws : list chunk) : list (list chunk) * (list chunk * list chunk) :=
  match l with
  | [] => ([], (cur, ws))
  | c :: l =>
    if white_chunk c then
      match cur with
      | [] => batches l [] (ws ++ [c])
      | _ => let (b, r) := batches l [] (ws ++ [c]) in (cur :: b, r)
      end
    else batches l (cur ++ ws ++ [c]) []
  end.
Fixpoint all_batches (e : env) (l : list chunk) (cur ws : list chunk) : res (list (list chunk)) :=
  match l with
  | [] => Ok (match cur with [] => [] | _ => [cur] end)
  | c :: l => do s <- split_chunk e c; let '(b, (cur, ws)) := batches s cur ws in do r <- all_batches e l cur ws; Ok (b ++ r)
  end.
Fixpoint add_batches (e : env) (a : args) (l : list (list chunk)) : res (list entry) :=
  match l with [] => Ok [] | b :: l => do x <- add_entry_chunk e a b; do r <- add_batches e a l; Ok (x ++ r) end.
Definition add_entry (e : env) (a : args) (l : list chunk) : res (list entry) :=
  if o_words (a_opts a) then do b <- all_batches e l [] []; add_batches e a b else add_entry_chunk e a l.

(** ** ExtractionContext *)

(** 120-160: Entries, Chunk, Chunks, States with the top first, XObjectStateIndices with the back first, CurrentEntryT_rm_y (None: NaN),
    PrevChunkT_rm_Pos. [m_page] is the canvas of the page *)
Record context := mk_cx { x_entries : list entry; x_chunk : chunk; x_chunks : list chunk; x_states : list tstate; x_forms : list (Z * nat);
  x_line : option Q; x_prev : Q * Q; x_page : Z }.
Definition current (x : context) : tstate := match x_states x with s :: _ => s | [] => start end.
Definition set_current (x : context) (s : tstate) : context :=
  mk_cx (x_entries x) (x_chunk x) (x_chunks x) (s :: tl (x_states x)) (x_forms x) (x_line x) (x_prev x) (x_page x).
Definition canvas (x : context) : Z := match x_forms x with (c, _) :: _ => c | [] => x_page x end.
(** 859-884 Push and Pop; a negative number of states is a large one of type unsigned *)
Definition push_state (x : context) : context :=
  mk_cx (x_entries x) (x_chunk x) (x_chunks x) (current x :: x_states x) (x_forms x) (x_line x) (x_prev x) (x_page x).
Definition pop_state (x : context) (n : Z) : res context :=
  if (n <? 0) || (Z.of_nat (length (x_states x)) <=? n) then Err EInternalLogic
  else Ok (mk_cx (x_entries x) (x_chunk x) (x_chunks x) (skipn (Z.to_nat n) (x_states x)) (x_forms x) (x_line x) (x_prev x) (x_page x)).
(** 1000-1012, 1028-1031 *)
Definition push_chunk (x : context) : context :=
  mk_cx (x_entries x) [] (x_chunks x ++ [x_chunk x]) (x_states x) (x_forms x) (x_line x) (x_prev x) (x_page x).
Definition try_push_chunk (x : context) : context := match x_chunk x with [] => x | _ => push_chunk x end.
Definition flush (e : env) (a : args) (x : context) : res context :=
  do l <- add_entry e a (x_chunks x);
  Ok (mk_cx (x_entries x ++ l) (x_chunk x) [] (x_states x) (x_forms x) (x_line x) (x_prev x) (x_page x)).
Definition put (x : context) (s : sstr) : context :=
  mk_cx (x_entries x) (x_chunk x ++ [s]) (x_chunks x) (x_states x) (x_forms x) (x_line x) (x_prev x) (x_page x).
(** 1233-1236 with SAME_LINE_THRESHOLD; 28-31 *)
Definition same_line (a b : Q) : bool := let d := (a - b)%Q in ltb d (1 # 100) && ltb (- (1 # 100)) d.
Definition epsilon : Q := 1 # 10000000.
(** 1080-1089 *)
Definition distance (e : env) (x : context) : Q := vlen e (vsub (origin (trm (current x))) (x_prev x)).
(** 1033-1078 tryAddEntry *)
Definition try_add_entry (e : env) (a : args) (x : context) (s : sstr) : res context :=
  match x_chunks x, x_chunk x with
  | [], [] => Ok x
  | _, _ =>
    if match x_line x with Some y => same_line (mf (trm (current x))) y | None => false end then
      let d := distance e x in
      let w := wlen (current x) in
      if Qle_bool w (d + epsilon) then
        if o_words (a_opts a) || ltb (w * 6) (d + epsilon) then flush e a (try_push_chunk x)
        else
          match rev (x_chunk x), rev (map (@rev sstr) (x_chunks x)) with
          | p :: _, _ | [], (p :: _) :: _ =>
            Ok (if ends_white p || begins_white s then x else put x (new_ss e [32] (ss_state p) [d] [0]))
          | _, _ => UB
          end
      else Ok x
    else flush e a (try_push_chunk x)
  end.
(** 978-998 PushString *)
Definition push_string (e : env) (a : args) (x : context) (s : sstr) (chunked : bool) : res context :=
  let y := Some (mf (trm (current x))) in
  let x := mk_cx (x_entries x) (x_chunk x) (x_chunks x) (x_states x) (x_forms x) (match x_line x with None => y | l => l end) (x_prev x) (x_page x) in
  do x <- try_add_entry e a x s;
  let x := put (mk_cx (x_entries x) (x_chunk x) (x_chunks x) (x_states x) (x_forms x) y (x_prev x) (x_page x)) s in
  let x := if chunked then push_chunk x else x in
  let st := set_trm (set_tm (current x) (apply_tx (tm (current x)) (qsum (ss_raw s)))) in
  let x := set_current x st in
  Ok (mk_cx (x_entries x) (x_chunk x) (x_chunks x) (x_states x) (x_forms x) (x_line x) (origin (trm st)) (x_page x)).
Definition show (e : env) (a : args) (x : context) (hex : bool) (str : list Z) (chunked : bool) : res context :=
  match decode e hex str (current x) with
  | Some ((_ :: _) as t, raw, pos) => push_string e a x (new_ss e t (current x) raw pos) chunked
  | _ => Ok x
  end.
(** 912-976 *)
Definition end_text (e : env) (s : tstate) : tstate := dependent e (set_lines s identity).
Definition tf_operator (e : env) (cv : Z) (n : list Z) (size : Q) (s : tstate) : tstate :=
  let (f, w) := match e_font e cv n with
                | None => (tfont s, 0%Q)
                | Some None => (None, 0%Q)
                | Some (Some f) => (Some f, glyph_length (f_space f) (set_font s (Some f) size 0%Q))
                end in
  set_space e (set_font s f size (if nonzero w then w else size)).
Definition cm_operator (m : matrix) (s : tstate) : tstate := set_trm (set_ctm s (mult m (ctm s))).
Definition tm_operator (e : env) (m : matrix) (s : tstate) : tstate := dependent e (set_lines s m).
Definition td_operator (e : env) (v : Q * Q) (s : tstate) : tstate := dependent e (set_lines s (translate (tlm s) v)).
Definition tstar_operator (e : env) (s : tstate) : tstate := dependent e (set_lines s (apply_ty (tlm s) (- tlead s)%Q)).
Definition advance (e : env) (v : Q) (s : tstate) : tstate := dependent e (set_tm s (apply_tx (tm s) v)).

(** ** ExtractTextTo *)

(** PdfVariant.cpp: GetReal, GetString, GetName, GetArray *)
Definition real_of (o : obj) : res Q :=
  match o with ONum z => Ok (inject_Z z) | OReal m k => Ok (inject_Z m / inject_Z (10 ^ Z.of_nat k))%Q | _ => Err EInvalidDataType end.
Definition real_at (st : list obj) (i : nat) : res Q := do o <- stack_at st i; real_of o.
Definition string_at (st : list obj) (i : nat) : res (bool * list Z) :=
  do o <- stack_at st i; match o with OStr h s => Ok (h, s) | _ => Err EInvalidDataType end.
(** 671-679 *)
Definition matrix_at (st : list obj) : res matrix :=
  do f <- real_at st 0; do e <- real_at st 1; do d <- real_at st 2; do c <- real_at st 3; do b <- real_at st 4; do a <- real_at st 5;
  Ok (mk_matrix a b c d e f).
(** 332-358: the elements of the array of TJ *)
Fixpoint show_array (e : env) (a : args) (x : context) (l : list obj) : res context :=
  match l with
  | [] => Ok x
  | OStr h s :: l => do x <- show e a x h s false; show_array e a x l
  | o :: l =>
    match real_of o with
    | Ok v => show_array e a (set_current x (advance e (- v / 1000 * tsize (current x))%Q (current x))) l
    | _ => show_array e a x l
    end
  end.
(** 213-394: the operators, by their number in PdfOperator (PdfDeclarations.h, OpTables.v) *)
Definition on_operator (e : env) (a : args) (x : context) (op : Z) (st : list obj) : res context :=
  let s := current x in
  match op with
  | 36 => do v <- real_at st 0; Ok (set_current x (set_tl s v))
  | 11 => do m <- matrix_at st; Ok (set_current x (cm_operator m s))
  | 40 => do ty <- real_at st 0; do tx <- real_at st 1; Ok (set_current x (td_operator e (tx, ty) s))
  | 41 => do ty <- real_at st 0; do tx <- real_at st 1; Ok (set_current x (set_tl (td_operator e (tx, ty) s) (- ty)%Q))
  | 42 => do m <- matrix_at st; Ok (set_current x (tm_operator e m s))
  | 43 => Ok (set_current x (tstar_operator e s))
  | 31 => Ok x
  | 32 => Ok (set_current x (end_text e s))
  | 37 => do size <- real_at st 0; do o <- stack_at st 1;
          match o with OName n => Ok (set_current x (tf_operator e (canvas x) n size s)) | _ => Err EInvalidDataType end
  | 44 => do (h, t) <- string_at st 0; show e a x h t true
  | 46 => do (h, t) <- string_at st 0; do x <- show e a x h t true; Ok (set_current x (tstar_operator e (current x)))
  | 47 => do (h, t) <- string_at st 0; do c <- real_at st 1; do w <- real_at st 2;
          do x <- show e a (set_current x (set_spacing s c w)) h t true; Ok (set_current x (tstar_operator e (current x)))
  | 45 => do o <- stack_at st 0;
          match o with OArr l => do x <- show_array e a x l; Ok (try_push_chunk x) | _ => Err EInvalidDataType end
  | 33 => do v <- real_at st 0; Ok (set_current x (set_spacing s v (tword s)))
  | 34 => do v <- real_at st 0; Ok (set_current x (set_spacing s (tchar s) v))
  | 9 => Ok (push_state x)
  | 10 => pop_state x 1
  | _ => Ok x
  end.
(** 208-433 *)
Definition on_content (e : env) (a : args) (x : context) (c : content) : res context :=
  match ct_type c with
  | COperator => if Z.testbit (ct_warn c) 0 then Ok x else on_operator e a x (ct_op c) (ct_stack c)
  | CImageDict | CImageData => Ok x
  | CDoXObject =>
    match ct_xobj c with
    | Some (f, XForm) =>
      Ok (push_state (mk_cx (x_entries x) (x_chunk x) (x_chunks x) (x_states x) ((f, length (x_states x)) :: x_forms x) (x_line x) (x_prev x) (x_page x)))
    | Some _ => Ok x
    | None => UB
    end
  | CEndForm =>
    match x_forms x with
    | [] => UB
    | (_, k) :: r =>
      do x <- pop_state x (Z.of_nat (length (x_states x)) - Z.of_nat k);
      Ok (mk_cx (x_entries x) (x_chunk x) (x_chunks x) (x_states x) r (x_line x) (x_prev x) (x_page x))
    end
  | CUnknown | CUnexpected => Err EInternalLogic
  end.
Fixpoint on_contents (e : env) (a : args) (x : context) (l : list content) : res context :=
  match l with [] => Ok x | c :: l => do x <- on_content e a x c; on_contents e a x l end.
(** 886-902, 200-439 *)
Definition new_context (page : Z) : context := mk_cx [] [] [] [start] [] None (0%Q, 0%Q) page.
Definition extract (e : env) (a : args) (page : Z) (l : list content) : res (list entry) :=
  if o_sub (a_opts a) && match a_pattern a with [] => true | _ => false end then Err ENotImplemented
  else
    do x <- on_contents e a (new_context page) l;
    do x <- match x_chunks x with [] => Ok x | _ => flush e a x end;
    Ok (x_entries x).
