(** Embedding the files of fonts: src/pdfmm/base/PdfFont.cpp:501-565, and the lengths of the parts of Type 1 files:
    PdfFontMetricsFreetype.cpp:227-317, 463-485. Sizes are below 2^32. The stream of the file is its data; that of a new object is compressed. *)
From Coq Require Import String.
From Verif Require Import Base TokModel OwnModel.
Local Open Scope Z_scope.

(** string_view::find and rfind: the first and the last position *)
Fixpoint starts (p d : list Z) : bool :=
  match p, d with [], _ => true | x :: p', y :: d' => (x =? y) && starts p' d' | _, [] => false end.
Fixpoint find_first (p d : list Z) : option nat :=
  if starts p d then Some 0%nat else match d with [] => None | _ :: t => option_map S (find_first p t) end.
Fixpoint find_last (p d : list Z) : option nat :=
  match d with
  | [] => if starts p d then Some 0%nat else None
  | _ :: t => match find_last p t with Some n => Some (S n) | None => if starts p d then Some 0%nat else None end
  end.
(** m_Length1, m_Length2, m_Length3 *)
Record lens := mk_lens { l1 : nat; l2 : nat; l3 : nat }.
Definition is_gap (c : Z) : bool := (c =? 10) || (c =? 13) || (c =? 9) || (c =? 32).
(** The loop 260-278, [fuel] times at most: the function returns in it, or the loop is left. The break of 276 leaves the switch and not
    the loop, so that what follows 278 is never reached *)
Inductive leave := Returned (n : nat) | Left (n : nat).
Fixpoint skip_gap (fuel : nat) (d : list Z) (n : nat) : res leave :=
  match fuel with
  | O => Fuel
  | S k => if Nat.eqb n (length d) then Ok (Returned n) else if is_gap (nth n d 0) then skip_gap k d (S n) else skip_gap k d n
  end.
(** 287-313: zeros before the mark *)
Fixpoint skip_zeros (fuel : nat) (d : list Z) (zeros i : nat) : option nat :=
  match fuel with
  | O => None
  | S k =>
    let c := nth i d 0 in
    let zeros := if (c =? 10) || (c =? 13) then zeros else if c =? 48 then (zeros - 1)%nat else 0%nat in
    if Nat.eqb zeros 0 then Some i else if Nat.eqb (i - 1) 0 then None else skip_zeros k d zeros (i - 1)
  end.
(** 248-317 initType1Lengths *)
Definition init_type1 (fuel : nat) (d : list Z) : res lens :=
  match find_first (bs "eexec") d with
  | None => Ok (mk_lens 0 0 0)
  | Some found =>
    do r <- skip_gap fuel d (found + 5);
    Ok (match r with
        | Returned n => mk_lens n 0 0
        | Left n =>
          match find_last (bs "cleartomark") d with
          | None | Some O => mk_lens n (length d - n) 0
          | Some (S i) => match skip_zeros (S i) d 512 i with None => mk_lens n 0 0 | Some c => mk_lens n (c - n) (length d - (c - n)) end
          end
        end)
  end.

(** PdfFontFileType of what can be embedded *)
Inductive kind := KType1 | KCidType1 | KCff | KTrueType | KOpenType | KType3 | KNone.
(** The metrics: of FreeType, or with lengths of their own *)
Inductive source := SFree | SGiven (a b c : nat).
(** 227-246 ensureLengthsReady, 463-485 *)
Definition ready (fuel : nat) (k : kind) (d : list Z) : res lens :=
  match k with KType1 => init_type1 fuel d | KTrueType => Ok (mk_lens (length d) 0 0) | _ => Ok (mk_lens 0 0 0) end.
Definition length1 (k : kind) (d : list Z) : nat := match k with KType1 | KTrueType => length d | _ => 0%nat end.
Definition lengths (fuel : nat) (s : source) (k : kind) (d : list Z) : res (nat * nat * nat) :=
  match s with
  | SGiven a b c => Ok (a, b, c)
  | SFree => do l <- ready fuel k d; Ok (length1 k d, l1 l, l1 l)
  end.
(** PdfFont.cpp:559-565 embedFontFileData: the dictionary of the new object once the data is set *)
Definition new_file : list (list Z * obj) := add_key (bs "Filter") (OName (bs "FlateDecode")) [].
Definition num (n : nat) : obj := ONum (Z.of_nat n).
(** 501-557 EmbedFontFile: the entry of the descriptor and the dictionary of the file. In 555 the object is copied, and the entry is added to
    the copy *)
Definition embed (fuel : nat) (s : source) (k : kind) (cid : bool) (d : list Z) : res (list Z * list (list Z * obj)) :=
  match d with
  | [] => Err EInternalLogic
  | _ =>
    match k with
    | KType1 | KCidType1 =>
      do l <- lengths fuel s k d; let '(a, b, c) := l in
      Ok (bs "FontFile", add_key (bs "Length3") (num c) (add_key (bs "Length2") (num b) (add_key (bs "Length1") (num a) new_file)))
    | KCff => Ok (bs "FontFile3", add_key (bs "Subtype") (OName (if cid then bs "CIDFontType0C" else bs "Type1C")) new_file)
    | KTrueType => Ok (bs "FontFile2", add_key (bs "Length1") (num (length d)) new_file)
    | KOpenType => let copy := add_key (bs "Subtype") (OName (bs "OpenType")) new_file in Ok (bs "FontFile3", snd (copy, new_file))
    | KType3 | KNone => Err EInvalidEnumValue
    end
  end.
