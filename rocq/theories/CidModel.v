(** Fonts keyed by CIDs: the map from CIDs to glyphs (src/pdfmm/base/PdfCIDToGIDMap.cpp), identity encodings (PdfIdentityEncoding.cpp), the array of
    widths, its writer (PdfFontCID.cpp) and its reader (PdfFontMetricsObject.cpp), and the set of CIDs (PdfFontCIDTrueType.cpp). A width is
    a number of thousandths; the product with the font matrix, 1/1000, is left out. *)
From Coq Require Import String.
From Verif Require Import Base TokModel CodeModel CMapModel.
Local Open Scope Z_scope.

(** ** CIDs and glyphs *)
(** std::map<unsigned, unsigned>, sorted by the key *)
Definition cid_map := list (Z * Z).
Fixpoint find_cid (m : cid_map) (cid : Z) : option Z :=
  match m with
  | [] => None
  | (k, g) :: r => if k =? cid then Some g else find_cid r cid
  end.
(** PdfCIDToGIDMap.cpp:18-33 Create: the bytes are of the type char, which is signed, and are extended to unsigned *)
Definition glyph_of (a b : Z) : Z := Z.lor (u32 (Z.shiftl (u32 (schar a)) 8)) (u32 (schar b)).
Fixpoint load_map (i : Z) (bytes : list Z) : cid_map :=
  match bytes with
  | a :: b :: r => (i, glyph_of a b) :: load_map (i + 1) r
  | _ => []
  end.
(** 48-70 ExportTo: zeros from the CID before to the next one, then the glyph in two bytes *)
Fixpoint zeros (n : nat) : list Z := match n with O => [] | S k => 0 :: 0 :: zeros k end.
Fixpoint export_map (prev : Z) (m : cid_map) : list Z :=
  match m with
  | [] => []
  | (cid, gid) :: r => zeros (Z.to_nat (cid - prev)) ++ [gid / 256 mod 256; gid mod 256] ++ export_map (Z.max prev cid) r
  end.
(** 35-46 TryMapCIDToGID: 0 if there is none *)
Definition glyph_at (m : cid_map) (cid : Z) : Z := match find_cid m cid with Some g => g | None => 0 end.

(** ** Identity encodings *)
(** PdfDeclarationsPrivate.cpp:1064-1067 GetCharCodeSize: the logarithm to the base 256, rounded down, and 1; it is taken to be exact. The
    logarithm of 0 is minus infinity and its conversion to an integer is undefined *)
Definition char_code_size (code : Z) : res Z := if code =? 0 then UB else Ok (Z.log2 code / 8 + 1).
(** PdfIdentityEncoding.cpp:110-118 getLimits: the last code is 2^(8n), which is too large for unsigned if n is 4 *)
Definition identity_limits (n : Z) : res limits :=
  if (n =? 0) || (4 <? n) then Err EValueOutOfRange
  else if n =? 4 then UB
  else Ok (mk_limits n n (mk_code 0 n) (mk_code (2 ^ (8 * n)) n)).
(** 39-51 tryGetCharCode. [None]: false *)
Definition identity_code (l : limits) (cp : Z) : res (option code) :=
  do n <- char_code_size cp; Ok (if l_max l <? n then None else Some (mk_code cp (l_max l))).
(** 53-57 tryGetCodePoints *)
Definition identity_points (c : code) : option (list Z) := Some [c_num c].
(** PdfEncodingMap.cpp:39-64 TryGetNextCharCode without ligatures and the loop of PdfEncoding.cpp:102-113: one code point at a time *)
Fixpoint identity_encode (l : limits) (text : list Z) (acc : list Z) : res (option (list Z)) :=
  match text with
  | [] => Ok (Some acc)
  | cp :: r =>
    do c <- identity_code l cp;
    match c with
    | None => Ok None
    | Some c => do acc <- append_code c acc; identity_encode l r acc
    end
  end.
(** PdfIdentityEncoding.cpp:78-94 AppendToUnicodeEntries, PdfEncodingMap.cpp:273-280, PdfEncoding.cpp:653-681 *)
Definition identity_entries (l : limits) : res (list Z) :=
  do a <- write_code (l_first l); do b <- write_code (l_last l);
  Ok (bs "1 beginbfrange" ++ nl ++ a ++ [32] ++ b ++ [32] ++ write_points [c_num (l_first l)] ++ nl ++ bs "endbfrange").
Definition write_identity (l : limits) : res (list Z) := do r <- write_limits l; do e <- identity_entries l; Ok (unicode_cmap r e).

(** ** Widths *)
(** PdfFontCID.cpp:22-44 WidthExporter *)
Record exporter := mk_exporter { x_out : list obj; x_widths : list Z; x_start : Z; x_width : Z; x_count : Z }.
(** 225-230 reset *)
Definition x_reset (x : exporter) (cid width : Z) : exporter := mk_exporter (x_out x) (x_widths x) cid width 1.
(** 232-237 emitSameWidth *)
Definition x_same (x : exporter) : exporter :=
  mk_exporter (x_out x ++ [ONum (x_start x); ONum (u32 (x_start x + x_count x - 1)); ONum (x_width x)]) (x_widths x) (x_start x) (x_width x) (x_count x).
(** 239-244 emitArrayWidths *)
Definition x_array (x : exporter) : exporter :=
  mk_exporter (x_out x ++ [ONum (x_start x); OArr (map ONum (x_widths x))]) [] (x_start x) (x_width x) (x_count x).
(** 197-209 finish *)
Definition x_finish (x : exporter) : exporter :=
  if match x_widths x with [] => x_count x =? 1 | _ => true end
  then x_array (mk_exporter (x_out x) (x_widths x ++ [x_width x]) (x_start x) (x_width x) (x_count x))
  else x_same x.
(** 160-195 update *)
Definition x_update (x : exporter) (cid width : Z) : exporter :=
  if cid =? u32 (x_start x + x_count x)
  then
    if negb (u32 (width - x_width x) =? 0)
    then
      if match x_widths x with [] => negb (x_count x =? 1) | _ => false end
      then x_reset (x_same x) cid width
      else mk_exporter (x_out x) (x_widths x ++ [x_width x]) (x_start x) width (u32 (x_count x + 1))
    else
      match x_widths x with
      | [] => mk_exporter (x_out x) [] (x_start x) (x_width x) (u32 (x_count x + 1))
      | _ => let y := x_array x in mk_exporter (x_out y) (x_widths y) (u32 (x_start y + (x_count y - 1))) (x_width y) 2
      end
  else x_reset (x_finish x) cid width.
(** 211-223 GetPdfWidths; [wd] is getPdfWidth, 247-251, from glyphs to rounded widths *)
Definition pdf_widths (m : cid_map) (wd : Z -> Z) : list obj :=
  match m with
  | [] => []
  | _ => x_out (x_finish (fold_left (fun x p => x_update x (fst p) (wd (snd p))) m (mk_exporter [] [] 0 (wd 0) 1)))
  end.
(** 114-129 createWidths: the values of /W and /DW; [dw] is GetDefaultWidthRaw, negative if there is none *)
Definition create_widths (m : cid_map) (wd : Z -> Z) (dw : Z) : option (list obj) * option obj :=
  match pdf_widths m wd with
  | [] => (None, None)
  | w => (Some w, if dw <? 0 then None else Some (ONum dw))
  end.

(** PdfVariant.cpp:520-545 GetNumberLenient: a real is rounded half away from zero *)
Definition round_real (m : Z) (k : nat) : Z :=
  let d := 10 ^ Z.of_nat k in if m <? 0 then - ((2 * - m + d) / (2 * d)) else (2 * m + d) / (2 * d).
Definition lenient (o : obj) : res Z :=
  match o with
  | ONum n => Ok n
  | OReal m k => Ok (round_real m k)
  | _ => Err EInvalidDataType
  end.
(** 567-591 GetReal: the number itself is kept *)
Definition get_real (o : obj) : res obj :=
  match o with
  | ONum _ | OReal _ _ => Ok o
  | _ => Err EInvalidDataType
  end.
(** std::vector: resize and operator[], undefined past the end *)
Definition resize (ws : list obj) (n : Z) (d : obj) : list obj :=
  if Z.of_nat (length ws) <? n then ws ++ repeat d (Z.to_nat n - length ws) else ws.
Fixpoint set_at (ws : list obj) (i : nat) (w : obj) : list obj :=
  match ws, i with
  | [], _ => []
  | _ :: r, O => w :: r
  | x :: r, S k => x :: set_at r k w
  end.
(** PdfFontMetricsObject.cpp:216-217 *)
Fixpoint put_widths (ws : list obj) (i : Z) (vals : list obj) : res (list obj) :=
  match vals with
  | [] => Ok ws
  | v :: r =>
    do w <- get_real v;
    if i <? Z.of_nat (length ws) then put_widths (set_at ws (Z.to_nat i) w) (u32 (i + 1)) r else UB
  end.
(** 228-229: all places from the first to the last; if the last place is out of the vector, the loop gets there *)
Definition fill_widths (ws : list obj) (first last : Z) (w : obj) : res (list obj) :=
  if last <? first then Ok ws
  else if last <? Z.of_nat (length ws)
  then Ok (firstn (Z.to_nat first) ws ++ repeat w (Z.to_nat (last - first + 1)) ++ skipn (Z.to_nat (last + 1)) ws)
  else UB.
(** 190-232: [find] is MustGetObject. PdfArray::operator[] raises an error past the end *)
Definition second_of (find : Z -> Z -> res obj) (o : obj) : res obj := match o with ORef n g => find n g | _ => Ok o end.
Fixpoint load_widths (fuel : nat) (find : Z -> Z -> res obj) (d : obj) (arr : list obj) (ws : list obj) : res (list obj) :=
  match arr with
  | [] => Ok ws
  | a :: r =>
    match fuel with
    | O => Fuel
    | S f =>
      do n <- lenient a;
      let start := u32 n in
      match r with
      | [] => Err EValueOutOfRange
      | b :: r =>
        do s <- second_of find b;
        match s with
        | OArr vals =>
          do ws <- put_widths (resize ws (u32 (start + Z.of_nat (length vals))) d) start vals;
          load_widths f find d r ws
        | _ =>
          do e <- lenient b;
          let last := u32 e in
          let ws := resize ws (u32 (last + 1)) d in
          match r with
          | [] => Err EValueOutOfRange
          | c :: r => do w <- get_real c; do ws <- fill_widths ws start last w; load_widths f find d r ws
          end
        end
      end
    end
  end.
(** 190-191 the default width and the widths of a font with these values of /W and /DW *)
Definition load_font (find : Z -> Z -> res obj) (w : option (list obj)) (dw : option obj) : res (obj * list obj) :=
  do d <- match dw with Some o => get_real o | None => Ok (ONum 1000) end;
  do ws <- match w with Some arr => load_widths (length arr) find d arr [] | None => Ok [] end;
  Ok (d, ws).
(** 360-370 TryGetGlyphWidth, PdfFontMetrics.cpp:29-36 GetGlyphWidth *)
Definition glyph_width (f : obj * list obj) (gid : Z) : obj := nth (Z.to_nat gid) (snd f) (fst f).
(** PdfFont.cpp:409-416 GetCIDLengthRaw of a loaded font, 854-860 and PdfFontObject.cpp:34-55: with the map from CIDs to glyphs if there is one *)
Definition cid_width (f : obj * list obj) (m : option cid_map) (cid : Z) : obj :=
  match m with
  | None => glyph_width f cid
  | Some m => match find_cid m cid with Some g => glyph_width f g | None => fst f end
  end.

(** ** The set of CIDs: PdfFontCIDTrueType.cpp:47-68, one bit for each CID *)
Fixpoint or_at (s : list Z) (i : nat) (b : Z) : list Z :=
  match s, i with
  | [], _ => []
  | x :: r, O => Z.lor x b :: r
  | x :: r, S k => x :: or_at r k b
  end.
Definition add_bit (s : list Z) (cid : Z) : list Z :=
  let i := Z.to_nat (Z.shiftr cid 3) in
  let s := if (length s <? i + 1)%nat then s ++ repeat 0 (i + 1 - length s) else s in
  or_at s i (Z.shiftr 128 (Z.land cid 7)).
Definition cid_set (cids : list Z) : list Z := fold_left add_bit cids [].
