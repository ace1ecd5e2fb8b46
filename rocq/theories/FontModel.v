(** Created fonts: the glyphs that are used and the CIDs they get (src/pdfmm/base/PdfFont.cpp, PdfFontCID.cpp), texts in encodings that grow
    (PdfEncoding.cpp), strings to CIDs (PdfEncodingMap.cpp), lengths of texts, and the widths of simple fonts (PdfFontSimple.cpp,
    PdfFontObject.cpp, PdfFontMetricsObject.cpp). Widths are numbers of thousandths; the product with the font matrix is left out. *)
From Verif Require Import Base CodeModel CidModel.
Local Open Scope Z_scope.

(** ** The glyphs used *)
(** PdfEncodingCommon.h:45-63 PdfCID: the number and the code. PdfFont.h:27 UsedGIDsMap = std::map<unsigned, PdfCID>, sorted by the glyph *)
Definition used_gids := list (Z * (Z * code)).
Fixpoint find_gid (m : used_gids) (gid : Z) : option (Z * code) :=
  match m with
  | [] => None
  | (g, c) :: r => if g =? gid then Some c else find_gid r gid
  end.
(** std::map::try_emplace and insert: an entry that is there stays *)
Fixpoint emplace {A : Type} (m : list (Z * A)) (k : Z) (v : A) : list (Z * A) :=
  match m with
  | [] => [(k, v)]
  | (g, c) :: r => if k <? g then (k, v) :: m else if g <? k then (g, c) :: emplace r k v else m
  end.
(** m_SubsetGIDs, m_DynamicCIDMap and m_DynamicToUnicodeMap of a PdfFont *)
Record font := mk_font { f_gids : used_gids; f_cids : char_map; f_text : char_map }.
Definition new_font : font := mk_font [] new_map new_map.
(** PdfEncodingCommon.cpp PdfCID(id): the code of the same number, of the smallest size *)
Definition own_code (id : Z) : res code := do n <- char_code_size id; Ok (mk_code id n).
(** PdfFont.cpp:765-795 tryAddSubsetGID. [enc]: the codes of the map to Unicode, TryGetCharCode, or none if the encoding is dynamic.
    [None]: false *)
Definition try_add (enc : option (list Z -> option code)) (f : font) (gid : Z) (cps : list Z) : res (font * option (Z * code)) :=
  let id := u32 (u32 (Z.of_nat (length (f_gids f))) + 1) in
  match enc with
  | None =>
    do u <- own_code id;
    match find_gid (f_gids f) gid with
    | Some _ => Ok (f, None)
    | None =>
      do cm <- push (f_cids f) u [id];
      do tm <- push (f_text f) u cps;
      Ok (mk_font (emplace (f_gids f) gid (id, u)) cm tm, Some (id, u))
    end
  | Some look =>
    match look cps with
    | None => Ok (f, None)
    | Some u =>
      match find_gid (f_gids f) gid with
      | Some _ => Ok (f, None)
      | None => Ok (mk_font (emplace (f_gids f) gid (id, u)) (f_cids f) (f_text f), Some (id, u))
      end
    end
  end.
(** 656-670 AddSubsetGIDSafe *)
Definition add_gid (enc : option (list Z -> option code)) (f : font) (gid : Z) (cps : list Z) : res (font * (Z * code)) :=
  match find_gid (f_gids f) gid with
  | Some c => Ok (f, c)
  | None =>
    do r <- try_add enc f gid cps;
    match snd r with
    | Some c => Ok (fst r, c)
    | None => Err EInvalidFontFile
    end
  end.
(** 672-691 AddCharCodeSafe: the font is embedded as a whole *)
Definition add_code (sh : unit_map -> unit_map) (f : font) (gid : Z) (cps : list Z) : res (font * code) :=
  let (t, r) := code_of_text sh (f_text f) cps in
  match r with
  | Some c => Ok (mk_font (f_gids f) (f_cids f) t, c)
  | None =>
    do c <- own_code (u32 (Z.of_nat (length (m_map t))));
    do cm <- push (f_cids f) c [gid];
    do tm <- push t c cps;
    Ok (mk_font (f_gids f) cm tm, c)
  end.
(** PdfFontCID.cpp:142-153 getCIDToGIDMapSubset *)
Definition subset_map (m : used_gids) : cid_map := fold_left (fun r p => emplace r (fst (snd p)) (fst p)) m [].
(** PdfFontCIDTrueType.cpp:36-38: the glyphs of the embedded font program, in this order; 48-64: the CIDs of the set *)
Definition program_gids (m : used_gids) : list Z := map snd (subset_map m).
Definition subset_cids (m : used_gids) : list Z := map (fun p => fst (snd p)) m.

(** ** Texts *)
(** PdfEncoding.cpp:120-131: the glyphs of a text; [gid_of] is TryGetGID of the metrics. The substitution of glyphs of 133-136 is the one that
    changes nothing (PdfFontMetrics.cpp), the only one there is *)
Fixpoint gids_of (gid_of : Z -> option Z) (text : list Z) : option (list (Z * Z)) :=
  match text with
  | [] => Some []
  | cp :: r =>
    match gid_of cp with
    | None => None
    | Some g => option_map (cons (g, cp)) (gids_of gid_of r)
    end
  end.
(** 138-152 with 160-167: a font that is a subset *)
Fixpoint put_text (enc : option (list Z -> option code)) (f : font) (gs : list (Z * Z)) (acc : list Z) : res (font * list Z) :=
  match gs with
  | [] => Ok (f, acc)
  | (g, cp) :: r =>
    do x <- add_gid enc f g [cp];
    do acc <- append_code (snd (snd x)) acc;
    put_text enc (fst x) r acc
  end.
(** 87-157 TryConvertToEncoded for such fonts. [None]: false *)
Definition write_text (enc : option (list Z -> option code)) (gid_of : Z -> option Z) (f : font) (text : list Z) : res (font * option (list Z)) :=
  match gids_of gid_of text with
  | None => Ok (f, None)
  | Some gs => do x <- put_text enc f gs []; Ok (fst x, Some (snd x))
  end.
(** PdfFont.cpp:174-187 InitImported: the glyph of the space is there from the start, if there is one; a failure is ignored *)
Definition first_font (enc : option (list Z -> option code)) (gid_of : Z -> option Z) : res font :=
  match gid_of 32 with
  | None => Ok new_font
  | Some g => do r <- try_add enc new_font g [32]; Ok (fst r)
  end.
(** PdfEncoding.cpp:184-217 with the map to Unicode of a dynamic encoding *)
Definition read_text (f : font) (bytes : list Z) : res (list Z * bool) := decode (length bytes) (code_points (f_text f)) (m_limits (f_text f)) bytes.

(** ** CIDs of a string *)
(** PdfEncodingMap.cpp:134-156: a map of another type. [None]: false, and nothing is read *)
Fixpoint next_plain (size : Z) (bytes : list Z) (num i : Z) : option (Z * list Z) :=
  match bytes with
  | [] => None
  | b :: rest =>
    let num := Z.lor (Z.shiftl num 8 mod 4294967296) b in
    if i =? size then Some (num, rest) else next_plain size rest num ((i + 1) mod 256)
  end.
(** PdfEncodingMap.cpp:111-132 TryGetNextCID and PdfEncoding.cpp:265-291 tryConvertEncodedToCIDs. If a code stands for several numbers it is a failure,
    but the code is read: what follows is read by fetchFallbackCharCode (526-542), which reads a byte without a test for the end.
    [cmap]: the type of the map is CMap *)
Fixpoint cids_of (fuel : nat) (cmap : bool) (look : code -> option (list Z)) (l : limits) (bytes : list Z) : res (list Z * bool) :=
  match bytes with
  | [] => Ok ([], true)
  | b :: r =>
    match fuel with
    | O => Fuel
    | S n =>
      let failed (left : list Z) :=
        match left with
        | [] => UB
        | b :: r => let (c, rest) := fallback l r b 1 in do x <- cids_of n cmap look l rest; Ok (c_num c :: fst x, false)
        end in
      if cmap then
        match next_points look l bytes 0 1 with
        | Some ([c], rest) => do x <- cids_of n cmap look l rest; Ok (c :: fst x, snd x)
        | Some (_, rest) => failed rest
        | None => failed bytes
        end
      else
        match next_plain (l_max l) bytes 0 1 with
        | Some (c, rest) => do x <- cids_of n cmap look l rest; Ok (c :: fst x, snd x)
        | None => failed bytes
        end
    end
  end.
Definition read_cids (f : font) (bytes : list Z) : res (list Z * bool) := cids_of (length bytes) true (code_points (f_cids f)) (m_limits (f_cids f)) bytes.

(** ** Lengths *)
(** PdfFont.cpp:1008-1014 getGlyphLength; the numbers are taken to be exact *)
Definition glyph_length (size spacing scale w : Z) : Z := (w * size + spacing) * scale.
Definition total_length (size spacing scale : Z) (ws : list Z) : Z := fold_left (fun a w => a + glyph_length size spacing scale w) ws 0.
(** 693-763 tryConvertToGIDs. 739-760: in a created font the glyphs go to a variable of the same name that is local *)
Definition created_gids (gid_of : Z -> option Z) (text : list Z) : list Z * bool :=
  let local := map (fun cp => match gid_of cp with Some g => g | None => cp end) text in
  (match local with _ => [] end, forallb (fun cp => match gid_of cp with Some _ => true | None => false end) text).
(** 696-737: loaded fonts; [code_of]: TryGetCharCode, [cid_of]: TryGetCIDId, [to_gid]: TryMapCIDToGID *)
Definition loaded_gids (code_of : Z -> option code) (cid_of : code -> option Z) (to_gid : Z -> option Z) (text : list Z) : list Z * bool :=
  (map (fun cp => match code_of cp with
                  | None => cp
                  | Some c => match cid_of c with None => c_num c | Some cid => match to_gid cid with None => cid | Some g => g end end
                  end) text,
   forallb (fun cp => match code_of cp with
                      | None => false
                      | Some c => match cid_of c with None => false | Some cid => match to_gid cid with None => false | Some _ => true end end
                      end) text).
(** 283-300 TryGetStringLength of a text and 595-600 *)
Definition text_length (size spacing scale : Z) (wd : Z -> Z) (gids : list Z) : Z := total_length size spacing scale (map wd gids).
(** 302-317, 605-616 the length of an encoded string and 409-416 GetCIDLengthRaw with 862-890: the glyph of a CID is the one of the same number *)
Definition string_length (size spacing scale : Z) (wd : Z -> Z) (f : font) (bytes : list Z) : res Z :=
  do x <- read_cids f bytes; Ok (total_length size spacing scale (map wd (fst x))).

(** ** Simple fonts *)
(** PdfFontSimple.cpp:26-44 getWidthsArray, 92-94 FirstChar and LastChar; [wd] is GetCIDLengthRaw *)
Fixpoint code_range (first : Z) (n : nat) : list Z := match n with O => [] | S k => first :: code_range (first + 1) k end.
Definition simple_widths (wd : Z -> Z) (first last : Z) : list Z := map wd (code_range first (Z.to_nat (last - first + 1))).
(** PdfEncoding.cpp:44-61 the limits of a font that is loaded; [zero] is what GetCharCodeSize makes of 0, which the language leaves open.
    PdfEncodingCommon.cpp:126-130 AreValid *)
Definition size_of (zero code : Z) : Z := if code =? 0 then zero else Z.log2 code / 8 + 1.
Definition parsed_limits (zero first last : Z) : limits :=
  if first <? last then mk_limits (size_of zero first) (size_of zero last) (mk_code first (size_of zero first)) (mk_code last (size_of zero last))
  else mk_limits 255 0 (mk_code first (size_of zero first)) (mk_code last (size_of zero last)).
Definition limits_valid (l : limits) : bool := (c_num (l_first l) <=? c_num (l_last l)) && (l_min l <=? l_max l).
(** 462-468 GetLimits, 293-300 GetFirstChar; [base]: the limits of the map *)
Definition first_char (parsed base : limits) : res Z :=
  let l := if limits_valid parsed then parsed else base in
  if c_num (l_last l) <? c_num (l_first l) then Err EValueOutOfRange else Ok (c_num (l_first l)).
(** PdfFontObject.cpp:35-56 tryMapCIDToGID for a simple encoding, PdfFontMetricsObject.cpp GetGlyphWidth: the default if there is none *)
Definition loaded_width (parsed base : limits) (widths : list Z) (missing code : Z) : res Z :=
  do f <- first_char parsed base;
  let gid := u32 (code - f) in
  Ok (if gid <? Z.of_nat (length widths) then nth (Z.to_nat gid) widths missing else missing).
