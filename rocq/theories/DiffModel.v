(** Names of glyphs, lists of differences, difference encodings and built-in encodings. Names are the text of PdfName::GetString. *)
From Coq Require Import String.
From Verif Require Import Base TokModel ObjSpec CodeModel FontModel DiffTables.
Local Open Scope Z_scope.

(** ** Names and code points *)
(** PdfDifferenceEncoding.cpp:2629-2638: the first entry with the name *)
Fixpoint point_of (t : list (Z * list Z)) (n : list Z) : option Z :=
  match t with [] => None | (u, m) :: r => if beq m n then Some u else point_of r n end.
(** 2653-2665: the first entry with the code point *)
Fixpoint name_of (t : list (Z * list Z)) (cp : Z) : option (list Z) :=
  match t with [] => None | (u, m) :: r => if u =? cp then Some m else name_of r cp end.
(** std::from_chars for unsigned: the digits of the base at the start, letters of both cases, no sign. [None]: any error code *)
Definition digit_of (c : Z) : Z :=
  if (48 <=? c) && (c <=? 57) then c - 48 else if (97 <=? c) && (c <=? 122) then c - 87 else if (65 <=? c) && (c <=? 90) then c - 55 else 36.
Fixpoint leading (base : Z) (t : list Z) : list Z :=
  match t with [] => [] | c :: r => if digit_of c <? base then digit_of c :: leading base r else [] end.
Definition from_chars_unsigned (base : Z) (t : list Z) : option Z :=
  match leading base t with
  | [] => None
  | ds => let v := fold_left (fun a d => a * base + d) ds 0 in if v <? 2 ^ 32 then Some v else None
  end.
(** 2624-2654 NameToCodePoint; names_table is the table *)
Definition name_point (n : list Z) : res Z :=
  match point_of names_table n with
  | Some u => Ok u
  | None =>
    if beq (firstn 3 n) (bs "uni") then
      let rest := skipn 3 n in
      match from_chars_unsigned (if Z.of_nat (length rest) =? 4 then 16 else 10) rest with
      | None => Err ENoNumber
      | Some v => Ok v
      end
    else Ok 0
  end.
(** {:04x} of the formatter: lower case, at least four digits *)
Definition low_digit (v : Z) : Z := if v <? 10 then 48 + v else 87 + v.
Fixpoint low_hex (w : nat) (n : Z) : list Z := match w with O => [] | S k => low_digit (n / 16 ^ Z.of_nat k mod 16) :: low_hex k n end.
Definition hex_width (cp : Z) : nat := Z.to_nat (Z.max 4 (Z.log2 cp / 4 + 1)).
Definition uni_name (cp : Z) : list Z := bs "uni" ++ low_hex (hex_width cp) cp.
(** 2656-2680 CodePointToName *)
Definition point_name (cp : Z) : list Z :=
  match name_of points_table cp with
  | Some n => n
  | None => match name_of names_table cp with Some n => n | None => uni_name cp end
  end.

(** ** Lists of differences: code, name, code point *)
Definition diffs := list (Z * (list Z * Z)).
(** 2410-2431 addDifference; the comparison is of the codes *)
Fixpoint put_diff (l : diffs) (c : Z) (v : list Z * Z) : diffs :=
  match l with
  | [] => [(c, v)]
  | (d, w) :: r => if c <? d then (c, v) :: l else if c =? d then (c, v) :: r else (d, w) :: put_diff r c v
  end.
(** 2433-2461 TryGetMappedName and contains *)
Fixpoint find_diff (l : diffs) (c : Z) : option (list Z * Z) :=
  match l with [] => None | (d, w) :: r => if d =? c then Some w else find_diff r c end.
(** 2388-2391, 2393-2408 AddDifference *)
Definition add_point (l : diffs) (c cp : Z) : diffs := put_diff l c (point_name cp, cp).
Definition add_name (explicit : bool) (l : diffs) (c : Z) (n : list Z) : res diffs :=
  if explicit then Ok (put_diff l c (n, c)) else do cp <- name_point n; Ok (put_diff l c (n, cp)).
(** 2463-2483 ToArray *)
Fixpoint to_array (last : Z) (l : diffs) : list obj :=
  match l with
  | [] => []
  | (c, (n, _)) :: r => if c =? last + 1 then OName n :: to_array (last + 1) r else ONum c :: OName n :: to_array c r
  end.
(** 2533-2546: the loop of Create. The code is cast to unsigned and then to unsigned char; the increment of INT64_MAX is undefined *)
Fixpoint read_diffs (explicit : bool) (cur : Z) (l : diffs) (arr : list obj) : res diffs :=
  match arr with
  | [] => Ok l
  | ONum v :: r => read_diffs explicit v l r
  | OName n :: r =>
    do l <- add_name explicit l (cur mod 256) n;
    if cur =? 2 ^ 63 - 1 then UB else read_diffs explicit (cur + 1) l r
  | _ :: r => read_diffs explicit cur l r
  end.

(** ** Base encodings: the limits, tryGetCodePoints for a code with its size, tryGetCharCode, the name of TryGetExportObject *)
Record base_map := mk_base { b_first : Z; b_last : Z; b_points : code -> option (list Z); b_export : res (option (list Z)) }.
(** PdfEncodingMap.cpp:529-545 InitEncodingTable and 547-559 tryGetCharCode: later codes replace earlier ones *)
Fixpoint last_code (i : Z) (t : list Z) (cp : Z) : option Z :=
  match t with
  | [] => None
  | u :: r => match last_code (i + 1) r cp with Some c => Some c | None => if u =? cp then Some i else None end
  end.
Definition builtin_code (t : list Z) (cp : Z) : option code := option_map (fun c => mk_code c 1) (last_code 0 t cp).
(** 561-569 tryGetCodePoints *)
Definition builtin_points (t : list Z) (c : code) : option (list Z) := if 256 <=? c_num c then None else option_map (fun u => [u]) (nth_error t (Z.to_nat (c_num c))).
Definition builtin (t : list Z) (export : option (list Z)) : base_map := mk_base 0 255 (builtin_points t) (Ok export).
(** PdfPredefinedEncoding.cpp:18-28 and the constructors: three have a name to write, Standard, Symbol and ZapfDingbats have none *)
Definition win_ansi : base_map := builtin win_table (Some (bs "WinAnsiEncoding")).
Definition mac_roman : base_map := builtin mac_table (Some (bs "MacRomanEncoding")).
Definition mac_expert : base_map := builtin expert_table (Some (bs "MacExpertEncoding")).
Definition standard : base_map := builtin standard_table None.
Definition symbol : base_map := builtin symbol_table None.
Definition zapf : base_map := builtin zapf_table None.
(** PdfFontMetrics.cpp:283-304: a TrueType font program; PdfIdentityEncoding.cpp:53-76, 110-118. The largest CID gives the size n *)
Definition identity_base (n : Z) : base_map := mk_base 0 (2 ^ (8 * n)) (fun c => Some [c_num c]) (Err EInvalidEnumValue).

(** ** Difference encodings *)
Record diff_map := mk_diff { d_list : diffs; d_base : base_map }.
(** PdfDifferenceEncoding.cpp:2500-2549 Create; [base], [differences]: what FindKey and MustFindKey give for the two keys; [implicit]: what
    TryGetImplicitEncoding gives; [explicit]: the font is a Type 3 font *)
Definition base_named (n : list Z) : res base_map :=
  if beq n (bs "WinAnsiEncoding") then Ok win_ansi
  else if beq n (bs "MacRomanEncoding") then Ok mac_roman
  else if beq n (bs "MacExpertEncoding") then Ok mac_expert
  else Err EInvalidFontFile.
Definition create (explicit : bool) (implicit : option base_map) (base differences : option obj) : res diff_map :=
  do b <- match base with
          | None => Ok (match implicit with Some b => b | None => standard end)
          | Some (OName n) => base_named n
          | Some _ => Err EInvalidDataType
          end;
  do l <- match differences with
          | None => Ok []
          | Some (OArr arr) => read_diffs explicit (-1) [] arr
          | Some _ => Err EInvalidDataType
          end;
  Ok (mk_diff l b).
(** 2551-2579 getExportObject: the values of the two keys *)
Definition export (e : diff_map) : res (option obj * option obj) :=
  do n <- b_export (d_base e);
  Ok (option_map OName n, if Nat.eqb (length (d_list e)) 0 then None else Some (OArr (to_array (-2) (d_list e)))).
(** 2595-2611 tryGetCodePoints *)
Definition diff_points (e : diff_map) (c : code) : option (list Z) :=
  if 256 <=? c_num c then None
  else match find_diff (d_list e) (c_num c) with
       | Some (_, cp) => Some [cp]
       | None => b_points (d_base e) c
       end.
(** 2613-2644 buildReverseMap from the code [c] on, [n] codes. The difference is looked for with the code cast to unsigned char; [zero] is
    what GetCharCodeSize makes of 0. An empty list of code points would be read past its end *)
Fixpoint put_point (m : list (Z * Z)) (cp c : Z) : list (Z * Z) :=
  match m with [] => [(cp, c)] | (k, v) :: r => if k =? cp then (cp, c) :: r else (k, v) :: put_point r cp c end.
Fixpoint find_point (m : list (Z * Z)) (cp : Z) : option Z :=
  match m with [] => None | (k, v) :: r => if k =? cp then Some v else find_point r cp end.
Fixpoint reverse_map (zero : Z) (e : diff_map) (c : Z) (n : nat) (m : list (Z * Z)) : res (list (Z * Z)) :=
  match n with
  | O => Ok m
  | S k =>
    match find_diff (d_list e) (c mod 256) with
    | Some (_, cp) => reverse_map zero e (c + 1) k (put_point m cp c)
    | None =>
      match b_points (d_base e) (mk_code c (size_of zero c)) with
      | None => reverse_map zero e (c + 1) k m
      | Some [] => UB
      | Some (cp :: _) => reverse_map zero e (c + 1) k (put_point m cp c)
      end
    end
  end.
(** 2581-2593 tryGetCharCode *)
Definition diff_code (zero : Z) (e : diff_map) (cp : Z) : res (option code) :=
  do m <- reverse_map zero e (b_first (d_base e)) (Z.to_nat (b_last (d_base e) + 1 - b_first (d_base e))) [];
  Ok (option_map (fun c => mk_code c (size_of zero c)) (find_point m cp)).
(** PdfEncodingMap.cpp:39-64 TryGetNextCharCode without ligatures and the loop of PdfEncoding.cpp:102-113 *)
Fixpoint encode_with (look : Z -> res (option code)) (text : list Z) (acc : list Z) : res (option (list Z)) :=
  match text with
  | [] => Ok (Some acc)
  | cp :: r =>
    do c <- look cp;
    match c with
    | None => Ok None
    | Some c => do acc <- append_code c acc; encode_with look r acc
    end
  end.
(** PdfEncodingMap.cpp:404-405, 525-527, PdfDifferenceEncoding.cpp:2490-2498: one byte for a code. The size of the first code is not used *)
Definition one_byte : limits := mk_limits 1 1 (mk_code 0 1) (mk_code 255 1).
