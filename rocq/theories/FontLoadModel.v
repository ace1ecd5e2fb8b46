(** Fonts of the dictionaries of a document: src/pdfmm/base/PdfFontFactory.cpp:76-180, PdfEncodingFactory.cpp:25-107,
    PdfFontMetricsObject.cpp:22-130, 232-305, 527-537, PdfFontMetrics.cpp:262-315, PdfEncoding.cpp:43-62. Doubles are fractions. *)
From Coq Require Import String QArith.
From Verif Require Import Base TokModel OwnModel CidModel DiffModel.
Local Open Scope Z_scope.
Local Notation dict := (list (list Z * obj)) (only parsing).

(** PdfFontFileType *)
Inductive filekind := FKUnknown | FKType1 | FKType1C | FKOpenType | FKTrueType | FKType3.
(** Members of PdfFontMetricsObject; the other numbers of the descriptor are read like [me_ascent] or as plain numbers, and only their errors are kept *)
Record metrics := mk_metrics { me_name : list Z; me_kind : filekind; me_program : option obj; me_default : Q; me_widths : list Q; me_matrix : list Q; me_box : list Q;
  me_flags : Z; me_ascent : Q; me_descent : Q }.
(** Kinds of encoding maps: those of PdfEncodingMapFactory, a CMap with the largest size of its codes, differences, that of a standard font, that of a font
    program, and identities *)
Inductive emap := MWin | MMac | MExpert | MIdH | MIdV | MCMap (size : Z) | MDiff (d : dict) | MStd (k : Z) | MProgram | MIdentity (size : Z).
(** What is outside: the objects and whether they have streams, IsStandard14Font, whether the font program of metrics has an encoding (a face is loaded or a map of
    CIDs is found), CMaps, and the metrics of CID fonts (CidModel.v) *)
Record env := mk_env { look : Z * Z -> option obj; streamed : Z * Z -> bool; std14 : list Z -> option Z; program : metrics -> bool; cmap : obj -> res Z;
  cid_metrics : dict -> option obj -> res metrics }.
(** A font: the metrics, [inl] of a standard font, and the encoding with /ToUnicode *)
Record loaded := mk_loaded { lo_metrics : Z + metrics; lo_encoding : emap; lo_unicode : option emap }.

(** PdfObject::GetName, GetArray, GetDictionary, GetReal, GetNumber (PdfVariant.cpp): InvalidDataType for another type *)
Definition as_name (o : obj) : res (list Z) := match o with OName s => Ok s | _ => Err EInvalidDataType end.
Definition as_array (o : obj) : res (list obj) := match o with OArr l => Ok l | _ => Err EInvalidDataType end.
Definition as_dict (o : obj) : res dict := match o with ODict d => Ok d | _ => Err EInvalidDataType end.
Definition as_real (o : obj) : res Q := match o with ONum n => Ok (inject_Z n) | OReal m k => Ok (Qmake m (Z.to_pos (10 ^ Z.of_nat k))) | _ => Err EInvalidDataType end.
Definition as_number (o : obj) : res Z := match o with ONum n => Ok n | _ => Err EInvalidDataType end.
(** FindKey, and a value that is asked for if there is one; FindKeyAs with a default (PdfDictionary.h:352-359) *)
Definition find_as {A} (e : env) (f : obj -> res A) (k : list Z) (def : A) (d : dict) : res A := match dict_find (look e) k d with Some o => f o | None => Ok def end.
(** PdfArray.cpp:245-251; references are not followed *)
Definition at_idx (l : list obj) (i : nat) : res obj := match nth_error l i with Some o => Ok o | None => Err EValueOutOfRange end.

(** ** PdfFontMetricsObject.cpp *)
(** 39 *)
Definition thousandths : list Q := [1 # 1000; 0; 0; 1 # 1000; 0; 0]%Q.
Definition cell (m : list Q) (i : nat) : Q := nth i m 0%Q.
(** 527-537 getBBox *)
Definition box (m : list Q) (o : obj) : res (list Q) :=
  do l <- as_array o;
  do a <- at_idx l 0; do a <- lenient a; do b <- at_idx l 1; do b <- lenient b; do c <- at_idx l 2; do c <- lenient c; do d <- at_idx l 3; do d <- lenient d;
  Ok [inject_Z a * cell m 0; inject_Z b * cell m 3; inject_Z c * cell m 0; inject_Z d * cell m 3]%Q.
(** 34-35, 66-67, 74-75: the name, where it is not known yet *)
Definition name_of (e : env) (k : list Z) (d : dict) (n : list Z) : res (list Z) := match n with [] => find_as e as_name k [] d | _ => Ok n end.
(** 79-110: the font program and the kind that its subtype says; FindKeyAs<PdfName> *)
Definition file3 (e : env) (k : filekind) (d : dict) : res (filekind * option obj) :=
  match dict_find (look e) (bs "FontFile3") d with
  | None => Ok (k, None)
  | Some o =>
    do f <- as_dict o; do s <- find_as e as_name (bs "Subtype") [] f;
    Ok (match k with
        | FKType1 => if beq s (bs "Type1C") then FKType1C else if beq s (bs "OpenType") then FKOpenType else k
        | FKTrueType => if beq s (bs "OpenType") then FKOpenType else k
        | _ => k
        end, Some o)
  end.
Definition font_file (e : env) (k : filekind) (d : dict) : res (filekind * option obj) :=
  match k with
  | FKType1 => match dict_find (look e) (bs "FontFile") d with Some o => Ok (k, Some o) | None => file3 e k d end
  | FKTrueType => match dict_find (look e) (bs "FontFile2") d with Some o => Ok (k, Some o) | None => file3 e k d end
  | _ => Ok (k, None)
  end.
(** 113-120: the loop reads six elements *)
Fixpoint read_cells (l : list obj) (i n : nat) : res (list Q) :=
  match n with O => Ok [] | S n' => do o <- at_idx l i; do x <- as_real o; do r <- read_cells l (S i) n'; Ok (x :: r) end.
Definition matrix (e : env) (k : filekind) (font : dict) : res (list Q) :=
  match k with
  | FKType3 => match dict_find (look e) (bs "FontMatrix") font with Some o => do l <- as_array o; read_cells l 0 6 | None => Ok thousandths end
  | _ => Ok thousandths
  end.
(** 122-129 *)
Fixpoint scaled (a : Q) (l : list obj) : res (list Q) :=
  match l with [] => Ok [] | o :: t => do x <- as_real o; do r <- scaled a t; Ok (x * a :: r)%Q end.
Definition widths (e : env) (a : Q) (font : dict) : res (list Q) :=
  match dict_find (look e) (bs "Widths") font with Some o => do l <- as_array o; scaled a l | None => Ok [] end.
(** 250-280: a stretch that is a string is taken from the name, which is a null pointer (PdfVariant.cpp:680-690); the numbers *)
Definition numbers (e : env) (d : dict) (a : Q) : res (Z * Q * Q) :=
  do _ <- match dict_find (look e) (bs "FontStretch") d with Some (OStr _ _) => UB | _ => Ok tt end;
  do _ <- find_as e as_real (bs "FontWeight") 0%Q d;
  do fl <- find_as e as_number (bs "Flags") 0 d;
  do _ <- find_as e as_real (bs "ItalicAngle") 0%Q d;
  do asc <- find_as e as_real (bs "Ascent") 0%Q d; do desc <- find_as e as_real (bs "Descent") 0%Q d;
  do _ <- find_as e as_real (bs "Leading") 0%Q d; do _ <- find_as e as_real (bs "CapHeight") 0%Q d; do _ <- find_as e as_real (bs "XHeight") 0%Q d;
  do _ <- find_as e as_real (bs "StemV") 0%Q d; do _ <- find_as e as_real (bs "StemH") 0%Q d; do _ <- find_as e as_real (bs "AvgWidth") 0%Q d;
  do _ <- find_as e as_real (bs "MaxWidth") 0%Q d;
  Ok (fl, asc * a, desc * a)%Q.
(** 22-130 and 232-305 for the fonts that are not CID fonts; a missing descriptor is a null pointer but for Type3. The flag of a font without a descriptor
    is Symbolic. *)
Definition simple_metrics (e : env) (k : filekind) (font : dict) (desc : option obj) : res metrics :=
  do n <- find_as e as_name (bs "BaseFont") [] font;
  do t <- (match desc, k with
           | None, FKType3 =>
             do n <- name_of e (bs "Name") font n;
             do b <- (match dict_find (look e) (bs "FontBBox") font with Some o => box thousandths o | None => Ok [] end);
             Ok (n, b, k, None, 0%Q)
           | None, _ => UB
           | Some o, _ =>
             do d <- as_dict o;
             do n <- name_of e (bs "FontName") d n;
             do b <- (match dict_find (look e) (bs "FontBBox") d with Some o => box thousandths o | None => Ok [] end);
             do p <- font_file e k d;
             do w <- find_as e as_real (bs "MissingWidth") 0%Q d;
             Ok (n, b, fst p, snd p, w)
           end);
  let '(n, b, k, p, w) := t in
  do m <- matrix e k font;
  do ws <- widths e (cell m 0) font;
  do v <- (match desc with None => Ok (4, 0%Q, 0%Q) | Some o => do d <- as_dict o; numbers e d (cell m 3) end);
  let '(fl, asc, des) := v in
  Ok (mk_metrics n k p w ws m b fl asc des).

(** ** PdfEncodingFactory.cpp *)
(** PdfFontMetrics.cpp:262-315 TryGetImplicitEncoding *)
Definition implicit (e : env) (m : Z + metrics) : option emap :=
  match m with
  | inl k => Some (MStd k)
  | inr m => if program e m then Some MProgram else option_map MStd (std14 e (me_name m))
  end.
(** FindKey, with whether the object has a stream *)
Definition find_stream (e : env) (k : list Z) (d : dict) : option (obj * bool) :=
  match get_key k d with None => None | Some (ORef n g) => option_map (fun o => (o, streamed e (n, g))) (look e (n, g)) | Some o => Some (o, false) end.
(** 65-107 createEncodingMap; PdfDifferenceEncoding.cpp:2496-2549, where the errors are those of DiffModel's [create] *)
Definition create_map (e : env) (explicit : bool) (o : obj * bool) : res (option emap) :=
  match fst o with
  | OName n =>
    Ok (if beq n (bs "WinAnsiEncoding") then Some MWin else if beq n (bs "MacRomanEncoding") then Some MMac else if beq n (bs "MacExpertEncoding") then Some MExpert
        else if beq n (bs "Identity-H") then Some MIdH else if beq n (bs "Identity-V") then Some MIdV else None)
  | ODict d =>
    do c <- match dict_find (look e) (bs "CMapName") d with Some o => do n <- as_name o; Ok (Some n) | None => Ok None end;
    if match c with Some n => beq n (bs "Identity-H") | None => false end then Ok (Some MIdH)
    else if match c with Some n => beq n (bs "Identity-V") | None => false end then Ok (Some MIdV)
    else if snd o then do s <- cmap e (fst o); Ok (Some (MCMap s))
    else
      do df <- (match get_key (bs "Differences") d with None => Ok None | Some _ => match dict_find (look e) (bs "Differences") d with Some x => Ok (Some x) | None => Err ENoObject end end);
      do _ <- create explicit None (dict_find (look e) (bs "BaseEncoding") d) df;
      Ok (Some (MDiff d))
  | _ => Ok None
  end.
(** GetLimits().MaxCodeSize *)
Definition code_size (m : emap) : Z := match m with MIdH | MIdV => 2 | MCMap s | MIdentity s => s | _ => 1 end.
(** 25-63 CreateEncoding; [None] is the null encoding *)
Definition create_encoding (e : env) (font : dict) (m : Z + metrics) : res (option (emap * option emap)) :=
  let explicit := match m with inr m => match me_kind m with FKType3 => true | _ => false end | inl _ => false end in
  do enc <- (match find_stream e (bs "Encoding") font with Some o => create_map e explicit o | None => Ok None end);
  let enc := match enc with Some x => Some x | None => implicit e m end in
  do tou <- (match find_stream e (bs "ToUnicode") font with Some o => create_map e explicit o | None => Ok None end);
  match (match enc, tou with Some x, _ => Some x | None, Some t => Some (MIdentity (code_size t)) | None, None => None end) with
  | None => Ok None
  | Some x =>
    do _ <- find_as e as_number (bs "FirstChar") 0 font;
    do _ <- find_as e as_number (bs "LastChar") 0 font;
    Ok (Some (x, tou))
  end.

(** ** PdfFontFactory.cpp *)
Definition with_encoding (e : env) (font : dict) (m : Z + metrics) : res (option loaded) :=
  do x <- create_encoding e font m; Ok (match x with Some (a, t) => Some (mk_loaded m a t) | None => None end).
(** 76-180 TryCreateFromObject of a dictionary; [None]: false is returned. A descendant that is not found is a null pointer (PdfArray.cpp FindAt). The metrics of a
    descendant that is no CID font are those of its subtype. The metrics of a standard font are not made here. *)
Definition kind_named (s : list Z) : option filekind :=
  if beq s (bs "Type1") then Some FKType1 else if beq s (bs "Type3") then Some FKType3 else if beq s (bs "TrueType") then Some FKTrueType else None.
Definition try_create (e : env) (font : dict) : res (option loaded) :=
  match dict_find (look e) (bs "Type") font with
  | None => Err EInvalidDataType
  | Some t =>
    do t <- as_name t;
    if negb (beq t (bs "Font")) then Err EInvalidDataType else
    match dict_find (look e) (bs "Subtype") font with
    | None => Err EInvalidDataType
    | Some s =>
      do s <- as_name s;
      if beq s (bs "Type0") then
        match dict_find (look e) (bs "DescendantFonts") font with
        | None => Err EInvalidDataType
        | Some o =>
          do l <- as_array o;
          match l with
          | [] => Ok None
          | x :: _ =>
            match (match x with ORef n g => look e (n, g) | _ => Some x end) with
            | None => UB
            | Some x =>
              do c <- as_dict x;
              let desc := dict_find (look e) (bs "FontDescriptor") c in
              do sub <- match dict_find (look e) (bs "Subtype") c with Some y => as_name y | None => Err ENoObject end;
              do m <- match kind_named sub with Some k => simple_metrics e k c desc | None => cid_metrics e c desc end;
              with_encoding e font (inr m)
            end
          end
        end
      else
        match kind_named s with
        | None => Ok None
        | Some k =>
          match k, dict_find (look e) (bs "FontDescriptor") font with
          | FKType1, None =>
            do b <- match dict_find (look e) (bs "BaseFont") font with Some y => do n <- as_name y; Ok (std14 e n) | None => Ok None end;
            match b with None => Err ENoObject | Some n => with_encoding e font (inl n) end
          | _, desc => do m <- simple_metrics e k font desc; with_encoding e font (inr m)
          end
        end
    end
  end.
