(** Dates: src/pdfmm/base/PdfDate.cpp and the calendar of 3rdparty/date/date.h. A text is the list of its
    characters; the end of the list is the terminating NUL the code looks for (the code does not use the
    length of the string_view: a view into a longer text is read past its end, which is not modelled). *)
From Coq Require Import String.
From Verif Require Import Base TokModel WriteModel.
Local Open Scope Z_scope.

(** ** Calendar, date.h:2973-2987 and 3087-3103; [Z.quot] is C++ division. The unsigned subtractions are
    exact for the values that occur, except [d-1] for day 0, where the sum is formed modulo 2^32 and is
    exact again. *)
Definition to_days (y m d : Z) : Z :=
  let y := y - (if m <=? 2 then 1 else 0) in
  let era := Z.quot (if 0 <=? y then y else y - 399) 400 in
  let yoe := y - era * 400 in
  let doy := Z.quot (153 * (if 2 <? m then m - 3 else m + 9) + 2) 5 + d - 1 in
  let doe := yoe * 365 + Z.quot yoe 4 - Z.quot yoe 100 + doy in
  era * 146097 + doe - 719468.
Definition from_days (dp : Z) : Z * Z * Z :=
  let z := dp + 719468 in
  let era := Z.quot (if 0 <=? z then z else z - 146096) 146097 in
  let doe := z - era * 146097 in
  let yoe := Z.quot (doe - Z.quot doe 1460 + Z.quot doe 36524 - Z.quot doe 146096) 365 in
  let y := yoe + era * 400 in
  let doy := doe - (365 * yoe + Z.quot yoe 4 - Z.quot yoe 100) in
  let mp := Z.quot (5 * doy + 2) 153 in
  let d := doy - Z.quot (153 * mp + 2) 5 + 1 in
  let m := if mp <? 10 then mp + 3 else mp - 9 in
  (y + (if m <=? 2 then 1 else 0), m, d).

(** PdfDate.h:76-77 *)
Record date := mk_date { d_secs : Z; d_off : option Z }.

(** ** Writing, PdfDate.cpp:126-178 *)
(** fmt "{:0n}": the sign counts as a digit *)
Definition pad0 (n : nat) (z : Z) : list Z :=
  if z <? 0 then 45 :: repeat 48 (n - 1 - length (dec (- z))) ++ dec (- z) else repeat 48 (n - length (dec z)) ++ dec z.
Definition date_offset (w3c : bool) (off : option Z) : list Z :=
  match off with
  | None => []
  | Some o =>
    if o =? 0 then [90]
    else
      let h := Z.abs o / 60 in let m := Z.abs o mod 60 in
      (if 0 <? o then 43 else 45) :: pad0 2 h ++ (if w3c then 58 :: pad0 2 m else 39 :: pad0 2 m ++ [39])
  end.
(** casts to short and unsigned char *)
Definition to_short (z : Z) : Z := let r := z mod 2 ^ 16 in if r <? 2 ^ 15 then r else r - 2 ^ 16.
Definition date_text (w3c : bool) (dt : date) : list Z :=
  let local := d_secs dt + 60 * match d_off dt with Some o => o | None => 0 end in
  let dp := local / 86400 in
  let t := local - dp * 86400 in
  let '(y, m, d) := from_days dp in
  let y := pad0 4 (to_short y) in let m := pad0 2 (u8 m) in let d := pad0 2 (u8 d) in
  let h := pad0 2 (u8 (t / 3600)) in let mi := pad0 2 (u8 (t / 60 mod 60)) in let s := pad0 2 (u8 (t mod 60)) in
  (if w3c then y ++ [45] ++ m ++ [45] ++ d ++ [84] ++ h ++ [58] ++ mi ++ [58] ++ s
   else bs "D:" ++ y ++ m ++ d ++ h ++ mi ++ s) ++ date_offset w3c (d_off dt).

(** ** Reading *)
(** 439-454 parseFixLenNumber: [n] characters still allowed, [first] when none was read. The number and the
    rest, or None for false; the code leaves a partial value in [ret] in that case, see [zone]. *)
Fixpoint fix_len (n : nat) (first : bool) (v min max : Z) (l : list Z) : option (Z * list Z) :=
  match n with
  | O => if (v <? min) || (max <? v) then None else Some (v, l)
  | S n' =>
    match l with
    | c :: r => if is_digit c then fix_len n' false (v * 10 + (c - 48)) min max r
                else if first then None else Some (v, l)
    | [] => if first then None else Some (v, [])
    end
  end.
Definition parse_fix (n : nat) (min max : Z) (l : list Z) : option (Z * list Z) := fix_len n true 0 min max l.
(** value left in [ret] by a failing call *)
Fixpoint fix_left (n : nat) (v : Z) (l : list Z) : Z :=
  match n with
  | O => v
  | S n' => match l with c :: r => if is_digit c then fix_left n' (v * 10 + (c - 48)) r else v | [] => v end
  end.

(** 418-437 tryReadShiftChar *)
Definition shift_char (l : list Z) : option (Z * list Z) :=
  match l with
  | c :: r => if c =? 43 then Some (1, r) else if c =? 45 then Some (-1, r) else if c =? 90 then Some (0, r) else None
  | [] => None
  end.

(** ParseShift, 253-281 (PDF, [q] is the quote) and 336-361 (W3C, [q] is ':'): zone hours and minutes, None
    when the text is refused. *)
Definition zone (w3c : bool) (sh : Z) (l : list Z) : option (Z * Z) :=
  match l with
  | [] => Some (0, 0)
  | _ =>
    match parse_fix 2 0 59 l with
    | None => Some (fix_left 2 0 l, 0) (* goto End *)
    | Some (zh, l1) =>
      let q := if w3c then 58 else 39 in
      match (match l1 with
             | c :: l2 =>
               if c =? q then
                 match l2 with
                 | [] => Some (0, [])
                 | _ => match parse_fix 2 0 59 l2 with
                        | None => None
                        | Some (zm, l3) =>
                          Some (zm, match l3 with c :: l4 => if negb w3c && (c =? 39) then l4 else l3 | [] => [] end)
                        end
                 end
               else Some (0, l1)
             | [] => Some (0, [])
             end) with
      | None => None
      | Some (zm, l5) =>
        if (sh =? 0) && (negb (zh =? 0) || negb (zm =? 0)) then None
        else match l5 with [] => Some (zh, zm) | _ => None end
      end
    end
  end.

(** 376-401 inferTimeComponents: [v] lists year, month, day, hour, minute, second, missing ones are 0 *)
Definition infer (v : list Z) (z : option (Z * (Z * Z))) : date :=
  let secs := to_days (nth 0 v 0) (nth 1 v 0) (nth 2 v 0) * 86400 + nth 3 v 0 * 3600 + nth 4 v 0 * 60 + nth 5 v 0 in
  match z with
  | None => mk_date secs None
  | Some (sh, (zh, zm)) => let o := sh * (zh * 60 + zm) in mk_date (secs - o * 60) (Some o)
  end.

(** 200-290 tryParse: before each number and after the last one, PEEK_DATE_CHAR ends at the end of the text or
    goes to the zone at a shift character (26-34); after the last number any other character also goes to the
    zone, with shift 0. *)
Definition pdf_fields : list (nat * Z * Z) := [(4%nat, 0, 9999); (2%nat, 1, 12); (2%nat, 1, 31); (2%nat, 0, 23); (2%nat, 0, 59); (2%nat, 0, 59)].
Fixpoint parse_fields (fs : list (nat * Z * Z)) (v : list Z) (l : list Z) : option date :=
  match l with
  | [] => Some (infer v None)
  | _ =>
    match shift_char l with
    | Some (sh, r) => match zone false sh r with Some z => Some (infer v (Some (sh, z))) | None => None end
    | None =>
      match fs with
      | [] => match zone false 0 l with Some z => Some (infer v (Some (0, z))) | None => None end
      | (n, lo, hi) :: fs' =>
        match parse_fix n lo hi l with Some (x, r) => parse_fields fs' (v ++ [x]) r | None => None end
      end
    end
  end.
Definition try_parse (l : list Z) : option date :=
  match l with
  | 68 :: r => match r with 58 :: r' => parse_fields pdf_fields [] r' | _ => None end
  | _ => parse_fields pdf_fields [] l
  end.

(** 292-374 tryParseW3C; [sep]s by PEEK_DATE_CHAR_W3C (36-48) *)
Fixpoint w3c_fields (fs : list (Z * nat * Z * Z)) (v : list Z) (l : list Z) : option date :=
  match fs with
  | [] =>
    match shift_char l with
    | Some (sh, r) => match zone true sh r with Some z => Some (infer v (Some (sh, z))) | None => None end
    | None => Some (infer v None)
    end
  | (sep, n, lo, hi) :: fs' =>
    (* the zone may come instead of the seconds (328-329) *)
    match (if (length v =? 5)%nat then shift_char l else None) with
    | Some (sh, r) => match zone true sh r with Some z => Some (infer v (Some (sh, z))) | None => None end
    | None =>
      match l with
      | [] => Some (infer v None)
      | c :: r =>
        if c =? sep then match parse_fix n lo hi r with Some (x, r') => w3c_fields fs' (v ++ [x]) r' | None => None end
        else None
      end
    end
  end.
Definition w3c_rest : list (Z * nat * Z * Z) :=
  [(45, 2%nat, 1, 12); (45, 2%nat, 1, 31); (84, 2%nat, 0, 23); (58, 2%nat, 0, 59); (58, 2%nat, 0, 59)].
Definition try_parse_w3c (l : list Z) : option date :=
  match l with
  | [] => None
  | _ => match parse_fix 4 0 9999 l with Some (y, r) => w3c_fields w3c_rest [y] r | None => None end
  end.
