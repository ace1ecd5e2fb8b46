(** Subsets of TrueType fonts: src/pdfmm/base/PdfFontTrueTypeSubset.cpp. The font file is its bytes; the size of a buffer is not limited by
    memory. unsigned is of 32 bits, size_t of 64: sums of an unsigned and a sizeof do not wrap, those which are stored in an unsigned do. *)
From Coq Require Import String.
From Verif Require Import Base.
Local Open Scope Z_scope.

(** ** Reading *)
Definition len (b : list Z) : Z := Z.of_nat (length b).
(** Seek (PdfStreamDevice.cpp:92-104) and Read (PdfInputStream.cpp:20-36) of [n] bytes at [o] *)
Definition rd (n : Z) (f : list Z) (o : Z) : res (list Z) :=
  if len f <? o then Err EValueOutOfRange else if len f - o <? n then Err EUnexpectedEOF else Ok (firstn (Z.to_nat n) (skipn (Z.to_nat o) f)).
(** ReadUInt16BE, ReadUInt32BE (PdfDeclarationsPrivate.cpp:1134-1196; UtilModel.v has them for both byte orders) *)
Definition be_value (b : list Z) : Z := fold_left (fun v c => v * 256 + c) b 0.
Definition rd16 (f : list Z) (o : Z) : res Z := do b <- rd 2 f o; Ok (be_value b).
Definition rd32 (f : list Z) (o : Z) : res Z := do b <- rd 4 f o; Ok (be_value b).
(** WriteUInt16BE, WriteUInt32BE; 1074-1131 *)
Definition be16 (v : Z) : list Z := [v / 256 mod 256; v mod 256].
Definition be32 (v : Z) : list Z := [v / 2 ^ 24 mod 256; v / 2 ^ 16 mod 256; v / 256 mod 256; v mod 256].
(** Writing to a position inside a buffer; outside it is undefined *)
Definition patch (b : list Z) (o : Z) (x : list Z) : res (list Z) :=
  if o + len x <=? len b then Ok (firstn (Z.to_nat o) b ++ x ++ skipn (Z.to_nat o + length x) b) else UB.

(** ** The tables *)
(** FT_TRUETYPE_TAGS_H *)
Definition tag (s : list Z) : Z := be_value s.
Definition t_head : Z := Eval vm_compute in tag (bs "head").
Definition t_hhea : Z := Eval vm_compute in tag (bs "hhea").
Definition t_loca : Z := Eval vm_compute in tag (bs "loca").
Definition t_maxp : Z := Eval vm_compute in tag (bs "maxp").
Definition t_glyf : Z := Eval vm_compute in tag (bs "glyf").
Definition t_hmtx : Z := Eval vm_compute in tag (bs "hmtx").
Definition t_cvt : Z := Eval vm_compute in tag (bs "cvt ").
Definition t_fpgm : Z := Eval vm_compute in tag (bs "fpgm").
Definition t_prep : Z := Eval vm_compute in tag (bs "prep").
Definition t_post : Z := Eval vm_compute in tag (bs "post").
(** PdfFontTrueTypeSubset.h:70-76 without the checksum, which is read and not used *)
Record ttable := mk_tt { tt_tag : Z; tt_off : Z; tt_len : Z }.
Definition required : list Z := [t_head; t_hhea; t_loca; t_maxp; t_glyf; t_hmtx].
(** 138-186: whether the table is kept, and with what length *)
Definition kept (t : ttable) : option ttable :=
  if existsb (Z.eqb (tt_tag t)) (required ++ [t_cvt; t_fpgm; t_prep]) then Some t
  else if tt_tag t =? t_post then if tt_len t <? 32 then None else Some (mk_tt (tt_tag t) (tt_off t) 32)
  else None.
(** 112-190 InitTables: entry [i] and those after it *)
Fixpoint read_tables (n : nat) (i : Z) (f : list Z) : res (list ttable) :=
  match n with
  | O => Ok []
  | S n =>
    do tg <- rd32 f (12 + 16 * i); do _ <- rd32 f (12 + 16 * i + 4); do off <- rd32 f (12 + 16 * i + 8); do ln <- rd32 f (12 + 16 * i + 12);
    do r <- read_tables n (i + 1) f;
    Ok (match kept (mk_tt tg off ln) with Some t => t :: r | None => r end)
  end.
Definition init_tables (f : list Z) : res (list ttable) :=
  do n <- rd16 f 4; do ts <- read_tables (Z.to_nat n) 0 f;
  if existsb (fun t => existsb (Z.eqb (tt_tag t)) required) ts then Ok ts else Err EUnsupportedFontFormat.
(** 88-96 *)
Fixpoint table_off (ts : list ttable) (tg : Z) : res Z :=
  match ts with [] => Err EInternalLogic | t :: r => if tt_tag t =? tg then Ok (tt_off t) else table_off r tg end.
(** m_tables, m_glyphCount, m_HMetricsCount, m_isLongLoca, and the offsets of the context *)
Record font := mk_fn { fn_tables : list ttable; fn_count : Z; fn_hm : Z; fn_long : bool; fn_glyf : Z; fn_loca : Z }.
(** 81-86 Init, 98-110, 192-199; 71-79 *)
Definition open_font (f : list Z) : res font :=
  do ts <- init_tables f;
  do maxp <- table_off ts t_maxp; do n <- rd16 f (maxp + 4);
  do hhea <- table_off ts t_hhea; do hm <- rd16 f (hhea + 34);
  do head <- table_off ts t_head; do lg <- rd16 f (u32 (head + 50));
  do glyf <- table_off ts t_glyf; do loca <- table_off ts t_loca;
  Ok (mk_fn ts n hm (negb (lg =? 0)) glyf loca).

(** ** Glyphs *)
(** PdfFontTrueTypeSubset.h:84-94 *)
Record gdata := mk_gd { gd_comp : bool; gd_off : Z; gd_len : Z }.
Definition gd_adv (d : gdata) : Z := u32 (gd_off d + 10).
(** 538-565: what is between this component and the next, if there is one *)
Definition step (flags : Z) : Z :=
  (if Z.testbit flags 0 then 8 else 6) +
  (if Z.testbit flags 3 then 2 else if Z.testbit flags 6 then 4 else if Z.testbit flags 7 then 8 else 0).
Definition more (flags : Z) : bool := Z.testbit flags 5.
(** 525-536 ReadGlyphCompoundData in the loops of 216-239 and 306-314: the position and the glyph of each component, and how the list ends.
    Reading has no effects, so that an error is only met after the components before it *)
Fixpoint comps (fuel : nat) (f : list Z) (adv off : Z) : list (Z * Z) * res unit :=
  match fuel with
  | O => ([], Fuel)
  | S k =>
    let pos := u32 (adv + off) in
    match (do fl <- rd16 f pos; do g <- rd16 f (pos + 2); Ok (fl, g)) with
    | Ok (fl, g) => if more fl then let (l, e) := comps k f adv (u32 (off + step fl)) in ((pos, g) :: l, e) else ([(pos, g)], Ok tt)
    | Err e => ([], Err e)
    | UB => ([], UB)
    | Fuel => ([], Fuel)
    end
  end.
Definition components (f : list Z) (d : gdata) : list (Z * Z) * res unit := comps (S (length f)) f (gd_adv d) 0.
(** m_glyphDatas in the order of its keys *)
Fixpoint find_glyph (m : list (Z * gdata)) (g : Z) : option gdata :=
  match m with [] => None | (k, d) :: r => if g =? k then Some d else find_glyph r g end.
Fixpoint put_glyph (m : list (Z * gdata)) (g : Z) (d : gdata) : list (Z * gdata) :=
  match m with [] => [(g, d)] | (k, e) :: r => if g <? k then (g, d) :: m else (k, e) :: put_glyph r g d end.
(** 252-303: the offset and the length of a glyph *)
Definition locate (f : list Z) (fn : font) (g : Z) : res (Z * Z) :=
  if fn_long fn then
    do o1 <- rd32 f (fn_loca fn + 4 * g); do o2 <- rd32 f (fn_loca fn + 4 * (g + 1)); Ok (u32 (fn_glyf fn + o1), u32 (o2 - o1))
  else
    do o1 <- rd16 f (fn_loca fn + 2 * g); do o2 <- rd16 f (fn_loca fn + 2 * (g + 1)); Ok (u32 (fn_glyf fn + 2 * o1), u32 (2 * o2 - 2 * o1)).
(** 242-315 LoadGID and LoadCompound; m_glyphDatas and m_HMetricsCountNew *)
Fixpoint load_gid (fuel : nat) (f : list Z) (fn : font) (g : Z) (st : list (Z * gdata) * Z) : res (list (Z * gdata) * Z) :=
  match fuel with
  | O => Fuel
  | S k =>
    if fn_count fn <=? g then Err EInternalLogic
    else match find_glyph (fst st) g with
         | Some _ => Ok st
         | None =>
           do (off, ln) <- locate f fn g;
           do cc <- rd16 f off;
           let d := mk_gd (2 ^ 15 <=? cc) off ln in
           let st := (put_glyph (fst st) g d, if g <? fn_hm fn then u16 (snd st + 1) else snd st) in
           if gd_comp d then
             let (l, e) := components f d in
             do st <- (fix go (l : list (Z * Z)) st := match l with [] => Ok st | c :: r => do st <- load_gid k f fn (snd c) st; go r st end) l st;
             do _ <- e; Ok st
           else Ok st
         end
  end.
Definition load_top (f : list Z) (fn : font) : Z -> list (Z * gdata) * Z -> res (list (Z * gdata) * Z) := load_gid (S (S (Z.to_nat (fn_count fn)))) f fn.
Fixpoint load_all (f : list Z) (fn : font) (l : list Z) (st : list (Z * gdata) * Z) : res (list (Z * gdata) * Z) :=
  match l with [] => Ok st | g :: r => do st <- load_top f fn g st; load_all f fn r st end.
(** 208-240. glyphIndexMap as its keys in the order of their values, m_orderedGIDs, the components to be changed with their places in the glyph *)
Fixpoint index_of (l : list Z) (g : Z) : option Z :=
  match l with [] => None | k :: r => if g =? k then Some 0 else option_map Z.succ (index_of r g) end.
Definition add_index (l : list Z) (g : Z) : list Z * Z * bool :=
  match index_of l g with Some i => (l, i, false) | None => (l ++ [g], len l, true) end.
Definition order_one (d : gdata) (s : list Z * list Z) (c : Z * Z) : list Z * list Z * (Z * Z) :=
  let '(idx, i, new) := add_index (fst s) (snd c) in ((idx, if new then snd s ++ [snd c] else snd s), (u32 (u32 (fst c + 2) - gd_off d), i)).
Fixpoint order_comps (d : gdata) (s : list Z * list Z) (l : list (Z * Z)) : list Z * list Z * list (Z * Z) :=
  match l with
  | [] => (s, [])
  | c :: r => let (s, x) := order_one d s c in let (s, xs) := order_comps d s r in (s, x :: xs)
  end.
Fixpoint order_glyphs (f : list Z) (m : list (Z * gdata)) (s : list Z * list Z) : res (list Z * list Z * list (Z * list (Z * Z))) :=
  match m with
  | [] => Ok (s, [])
  | (g, d) :: r =>
    if gd_comp d then
      let (l, e) := components f d in let (s, x) := order_comps d s l in do _ <- e; do (s, xs) <- order_glyphs f r s; Ok (s, (g, x) :: xs)
    else do (s, xs) <- order_glyphs f r s; Ok (s, xs)
  end.
Fixpoint add_listed (l : list Z) (s : list Z * list Z) : list Z * list Z :=
  match l with [] => s | g :: r => add_listed r (fst (fst (add_index (fst s) g)), snd s ++ [g]) end.
(** m_glyphDatas, m_HMetricsCountNew, m_orderedGIDs, the components *)
Record loaded := mk_ld { ld_map : list (Z * gdata); ld_hm : Z; ld_order : list Z; ld_fix : list (Z * list (Z * Z)) }.
(** 201-240 LoadGlyphs *)
Definition load_glyphs (f : list Z) (fn : font) (gids : list Z) : res loaded :=
  do (m, hm) <- load_all f fn (0 :: gids) ([], 0);
  do (s, fx) <- order_glyphs f m (add_listed gids ([0], [0]));
  Ok (mk_ld m hm (snd s) fx).

(** ** Writing *)
Definition glyph_data (ld : loaded) (g : Z) : gdata := match find_glyph (ld_map ld) g with Some d => d | None => mk_gd false 0 0 end.
Fixpoint fix_of (fx : list (Z * list (Z * Z))) (g : Z) : list (Z * Z) := match fx with [] => [] | (k, l) :: r => if g =? k then l else fix_of r g end.
Fixpoint patch_all (b : list Z) (l : list (Z * Z)) : res (list Z) :=
  match l with [] => Ok b | (o, i) :: r => do b <- patch b o (be16 (u16 i)); patch_all b r end.
(** 318-344 WriteGlyphTable *)
Fixpoint write_glyphs (f : list Z) (ld : loaded) (l : list Z) : res (list Z) :=
  match l with
  | [] => Ok []
  | g :: r =>
    let d := glyph_data ld g in
    do b <- (if gd_len d =? 0 then Ok [] else do b <- rd (gd_len d) f (gd_off d); if gd_comp d then patch_all b (fix_of (ld_fix ld) g) else Ok b);
    do x <- write_glyphs f ld r; Ok (b ++ x)
  end.
(** 349-379 WriteHmtxTable: the full metrics, the left side bearings *)
Fixpoint write_metrics (f : list Z) (hm off : Z) (l : list Z) : res (list Z * list Z) :=
  match l with
  | [] => Ok ([], [])
  | g :: r =>
    if g <? hm then do b <- rd 4 f (u32 (off + 4 * g)); do (x, y) <- write_metrics f hm off r; Ok (b ++ x, y)
    else do b <- rd 2 f (u32 (off + 4 * hm) + 2 * (g - hm)); do (x, y) <- write_metrics f hm off r; Ok (x, b ++ y)
  end.
(** 388-414 WriteLocaTable *)
Fixpoint write_loca (long : bool) (ld : loaded) (at_ : Z) (l : list Z) : list Z :=
  (if long then be32 at_ else be16 (at_ / 2 mod 2 ^ 16)) ++ match l with [] => [] | g :: r => write_loca long ld (u32 (at_ + gd_len (glyph_data ld g))) r end.
(** 442-493: one table *)
Definition write_table (f : list Z) (fn : font) (ld : loaded) (t : ttable) : res (list Z) :=
  let copy := rd (tt_len t) f (tt_off t) in
  if tt_tag t =? t_head then do b <- copy; patch b 4 (be32 0)
  else if tt_tag t =? t_maxp then do b <- copy; patch b 4 (be16 (u16 (Z.of_nat (length (ld_map ld)))))
  else if tt_tag t =? t_hhea then do b <- copy; patch b 34 (be16 (ld_hm ld))
  else if tt_tag t =? t_post then do b <- copy; do b <- patch b 0 (be32 196608); patch b 16 (repeat 0 16)
  else if tt_tag t =? t_glyf then write_glyphs f ld (ld_order ld)
  else if tt_tag t =? t_loca then Ok (write_loca (fn_long fn) ld 0 (ld_order ld))
  else if tt_tag t =? t_hmtx then do off <- table_off (fn_tables fn) t_hmtx; do (x, y) <- write_metrics f (fn_hm fn) off (ld_order ld); Ok (x ++ y)
  else copy.
(** 565-576 GetTableCheksum: characters, not words *)
Definition checksum (b : list Z) : Z := u32 (fold_left (fun s c => s + schar c) (firstn (Z.to_nat ((len b + 3) / 4)) b) 0).
(** 495-499 *)
Definition padded (b : list Z) : list Z := b ++ repeat 0 (Z.to_nat ((4 - len b mod 4) mod 4)).
(** 436-506: the entries of the directory, the tables, the offset of the head table *)
Fixpoint write_all (f : list Z) (fn : font) (ld : loaded) (off : Z) (ts : list ttable) : res (list Z * list Z * option Z) :=
  match ts with
  | [] => Ok ([], [], None)
  | t :: r =>
    do b <- write_table f fn ld t;
    do (e, h) <- write_all f fn ld (off + len (padded b)) r; let (d, x) := e : list Z * list Z in
    Ok (be32 (tt_tag t) ++ be32 (checksum b) ++ be32 (u32 off) ++ be32 (u32 (len b)) ++ d, padded b ++ x,
        match h with Some o => Some o | None => if tt_tag t =? t_head then Some off else None end)
  end.
(** 416-435: the number of tables is not 0. The logarithms and powers of floating point numbers are exact here; a power above the range of
    uint16_t is undefined *)
Definition header (n : Z) : res (list Z) :=
  let es := Z.log2_up n in
  if 2 ^ 16 <=? 2 ^ es then UB else Ok (be32 65536 ++ be16 (u16 n) ++ be16 (2 ^ es) ++ be16 es ++ be16 (u16 (16 * n - 2 ^ es))).
(** 416-523 WriteTables *)
Definition write_tables (f : list Z) (fn : font) (ld : loaded) : res (list Z) :=
  let n := Z.of_nat (length (fn_tables fn)) in
  do h <- header n;
  do (e, head) <- write_all f fn ld (12 + 16 * n) (fn_tables fn); let (d, x) := e : list Z * list Z in
  match head with
  | None => Err EInternalLogic
  | Some o => let b := h ++ d ++ x in patch b (o + 4) (be32 (u32 (2981146554 - checksum b)))
  end.
(** 71-79 BuildFont *)
Definition build_font (f : list Z) (gids : list Z) : res (list Z) := do fn <- open_font f; do ld <- load_glyphs f fn gids; write_tables f fn ld.
