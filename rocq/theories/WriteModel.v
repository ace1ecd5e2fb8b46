(** Model of the object writers: PdfVariant.cpp:145-207, PdfArray.cpp:192-217,
    PdfDictionary.cpp:190-227, PdfReference.cpp:25-32, PdfName.cpp:96-183, PdfString.cpp:116-209,
    private/PdfDeclarationsPrivate.cpp number formatting. Without encryption. *)
From Coq Require Import String.
From Verif Require Import Base TokModel.
Local Open Scope Z_scope.

(** PdfDeclarations.h:119-130: the two flags that change the text of a value *)
Record wflags := mk_wf { wclean : bool; wnoinline : bool }.

(** Decimal digits of a non-negative number, as printed by fmt "{}" *)
Fixpoint dec_fuel (fuel : nat) (z : Z) : list Z :=
  match fuel with
  | O => []
  | S f => if z <? 10 then [48 + z] else dec_fuel f (z / 10) ++ [48 + z mod 10]
  end.
Definition dec (z : Z) : list Z := dec_fuel (S (Z.to_nat (Z.log2 z))) z.
Definition dec_signed (z : Z) : list Z := if z <? 0 then 45 :: dec (- z) else dec z.

(** fmt "{:.6f}" of the exact decimal m / 10^k: rounded half to even to units of 10^-6
    (PdfVariant.cpp:19 DefaultPrecision = 6; the code formats the binary double nearest to it). *)
Definition round_div (a b : Z) : Z :=
  let q := a / b in let r := a mod b in
  if 2 * r <? b then q else if b <? 2 * r then q + 1 else if Z.even q then q else q + 1.
Definition micro (m : Z) (k : nat) : Z := round_div (Z.abs m * 10 ^ 6) (10 ^ Z.of_nat k).

(** The fractional digits, exactly [n] of them *)
Fixpoint fixed_digits (n : nat) (z : Z) : list Z :=
  match n with
  | O => []
  | S n' => fixed_digits n' (z / 10) ++ [48 + z mod 10]
  end.
Definition fmt_f6 (m : Z) (k : nat) : list Z :=
  (if m <? 0 then [45] else []) ++ dec (micro m k / 10 ^ 6) ++ [46] ++ fixed_digits 6 (micro m k mod 10 ^ 6).

(** PdfDeclarationsPrivate.cpp:1198-1218 removeTrailingZeroes. Running off the start of a string
    of zeroes only is undefined behaviour; the text always holds a '.' here. *)
Fixpoint drop_zeroes (rev : list Z) : list Z :=
  match rev with
  | c :: r => if c =? 48 then drop_zeroes r else rev
  | [] => []
  end.
Definition drop_dot (rev : list Z) : list Z :=
  match rev with
  | c :: r => if c =? 46 then r else rev
  | [] => []
  end.
Definition remove_trailing_zeroes (t : list Z) : list Z :=
  match drop_dot (drop_zeroes (rev t)) with
  | [] => [48]
  | r => rev r
  end.
Definition real_text (m : Z) (k : nat) : list Z := remove_trailing_zeroes (fmt_f6 m k).

(** PdfName.cpp:320-324 hexchr and PdfDeclarationsPrivate.cpp:897-904 WriteCharHexTo: upper case *)
Definition hex_digit (v : Z) : Z := if v <? 10 then 48 + v else 55 + v.
Definition hex_byte (c : Z) : list Z := [hex_digit (c / 16); hex_digit (c mod 16)].

(** PdfName.cpp:171-173 *)
Definition name_plain (c : Z) : bool := is_regular c && is_printable c && negb (c =? 35).

(** PdfName.cpp:141-183 EscapeNameTo *)
Fixpoint escape_name (n : list Z) : res (list Z) :=
  match n with
  | [] => Ok []
  | c :: r =>
    if c =? 0 then Err EInvalidName
    else do t <- escape_name r;
         Ok ((if name_plain c then [c] else 35 :: hex_byte c) ++ t)
  end.

(** PdfName.cpp:96-107 Write *)
Definition write_name (n : list Z) : res (list Z) := do t <- escape_name n; Ok (47 :: t).

(** PdfString.cpp:434-457 getEscapedCharacter (of the writer) *)
Definition write_escape (c : Z) : Z :=
  if c =? 10 then 110 else if c =? 13 then 114 else if c =? 9 then 116 else if c =? 8 then 98
  else if c =? 12 then 102 else if c =? 40 then 40 else if c =? 41 then 41 else if c =? 92 then 92 else 0.

Fixpoint escape_string (s : list Z) : list Z :=
  match s with
  | [] => []
  | c :: r => (if write_escape c =? 0 then [c] else [92; write_escape c]) ++ escape_string r
  end.

(** PdfString.cpp:168-208 *)
Definition write_string (hex : bool) (s : list Z) : list Z :=
  if hex then [60] ++ flat_map hex_byte s ++ [62] else [40] ++ escape_string s ++ [41].

(** space before a literal unless NoInlineLiteral (PdfVariant.cpp:152, 163, 172, 194; PdfReference.cpp:27) *)
Definition lead (fl : wflags) : list Z := if wnoinline fl then [] else [32].

(** PdfReference.cpp:25-32 *)
Definition write_ref (fl : wflags) (n g : Z) : list Z := lead fl ++ dec n ++ [32] ++ dec g ++ [32; 82].

(** PdfVariant.cpp:145-207 Write with PdfArray and PdfDictionary Write *)
Fixpoint write (fl : wflags) (o : obj) : res (list Z) :=
  match o with
  | ONull => Ok (lead fl ++ bs "null")
  | OBool b => Ok (lead fl ++ (if b then bs "true" else bs "false"))
  | ONum n => Ok (lead fl ++ dec_signed n)
  | OReal m k => Ok (lead fl ++ real_text m k)
  | OName n => write_name n
  | OStr h s => Ok (write_string h s)
  | ORef n g => Ok (write_ref fl n g)
  | OArr l =>
    do x <- (fix go (count : Z) (l : list obj) : res (list Z) :=
               match l with
               | [] => Ok []
               | v :: r =>
                 do a <- write fl v;
                 do b <- go (count + 1) r;
                 Ok (a ++ (if wclean fl then [if count mod 10 =? 0 then 10 else 32] else []) ++ b)
               end) 1 l;
    Ok ((if wclean fl then [91; 32] else [91]) ++ x ++ [93])
  | ODict d =>
    do ty <- (fix go (d : list (list Z * obj)) : res (list Z) :=
                match d with
                | [] => Ok []
                | (k, v) :: r =>
                  if beq k (bs "Type") then
                    do a <- write fl v;
                    Ok (bs "/Type" ++ (if wclean fl then [32] else []) ++ a ++ (if wclean fl then [10] else []))
                  else go r
                end) d;
    do x <- (fix go (d : list (list Z * obj)) : res (list Z) :=
               match d with
               | [] => Ok []
               | (k, v) :: r =>
                 if beq k (bs "Type") then go r
                 else
                   do n <- write_name k;
                   do a <- write fl v;
                   do b <- go r;
                   Ok (n ++ (if wclean fl then [32] else []) ++ a ++ (if wclean fl then [10] else []) ++ b)
               end) d;
    Ok ((if wclean fl then [60; 60; 10] else [60; 60]) ++ ty ++ x ++ [62; 62])
  end.
