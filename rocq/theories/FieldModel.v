(** Form fields: src/pdfmm/base/PdfField.cpp and the classes of fields. A field is the reference of its dictionary; the
    objects of the document are a map from references to values. Strings are taken as the text that PdfString::GetString
    gives. A lookup in the parents recurses without a limit: Fuel means that it is still running. What an operation has
    changed before it raises is not kept. *)
From Coq Require Import String.
From Verif Require Import Base TokModel OwnModel ListModel PageModel.
Local Open Scope Z_scope.

(** PdfDeclarations.h PdfFieldType *)
Inductive kind := KPush | KCheck | KRadio | KText | KCombo | KList | KSig | KUnknown.
(** PdfField.h 39-48, PdfTextBox.h 27-33, PdfDeclarations.h 602-607 *)
Definition f_no_toggle : Z := 16384.
Definition f_radio : Z := 32768.
Definition f_push : Z := 65536.
Definition f_combo : Z := 131072.
Definition f_edit : Z := 262144.
Definition f_sort : Z := 524288.
Definition f_multi_select : Z := 2097152.
Definition f_list_no_spell : Z := 4194304.
Definition f_commit : Z := 67108864.
Definition f_multi_line : Z := 4096.
Definition f_password : Z := 8192.
Definition f_file : Z := 1048576.
Definition f_no_spell : Z := 4194304.
Definition f_no_scroll : Z := 8388608.
Definition f_comb : Z := 16777216.
Definition f_rich : Z := 33554432.
Definition f_read_only : Z := 1.
Definition f_required : Z := 2.
Definition f_no_export : Z := 4.

(** ** PdfField.cpp *)

(** PdfVariant.cpp 546-565 GetNumber *)
Definition number (o : obj) : res Z := match o with ONum n => Ok n | _ => Err EInvalidDataType end.
Definition as_dict (o : obj) : res (list (list Z * obj)) := match o with ODict d => Ok d | _ => Err EInvalidDataType end.
Definition as_text (o : obj) : res (list Z) := match o with OStr _ s => Ok s | _ => Err EInvalidDataType end.
(** 555-566 GetFieldFlags: None, no flags *)
Definition flags_of (fuel : nat) (h : heap) (d : list (list Z * obj)) : res (option Z) :=
  do o <- find_key_parent fuel h (bs "Ff") d;
  match o with None => Ok None | Some v => do n <- number v; Ok (Some n) end.
(** 545-552 GetFieldFlag *)
Definition get_flag (fuel : nat) (h : heap) (r : ref) (v : Z) (def : bool) : res bool :=
  do d <- dict_at h r;
  do o <- flags_of fuel h d;
  Ok (match o with None => def | Some n => Z.land n v =? v end).
(** 522-543 SetFieldFlag *)
Definition set_flag (fuel : nat) (h : heap) (r : ref) (v : Z) (on : bool) : res heap :=
  do d <- dict_at h r;
  do o <- flags_of fuel h d;
  let curr := match o with None => 0 | Some n => n end in
  let curr := if on then Z.lor curr v else if Z.land curr v =? v then Z.lxor curr v else curr in
  set_key h r (bs "Ff") (ONum curr).
(** 411-453 getFieldType of a value; GetName raises on another type *)
Definition field_type (fuel : nat) (look : heap) (o : obj) : res kind :=
  do d <- as_dict o;
  do ft <- find_key_parent fuel look (bs "FT") d;
  match ft with
  | None => Ok KUnknown
  | Some (OName n) =>
    if beq n (bs "Btn") then
      do f <- flags_of fuel look d;
      let f := match f with None => 0 | Some z => z end in
      Ok (if Z.land f f_push =? f_push then KPush else if Z.land f f_radio =? f_radio then KRadio else KCheck)
    else if beq n (bs "Tx") then Ok KText
    else if beq n (bs "Ch") then
      do f <- flags_of fuel look d;
      let f := match f with None => 0 | Some z => z end in
      Ok (if Z.land f f_combo =? f_combo then KCombo else KList)
    else if beq n (bs "Sig") then Ok KSig
    else Ok KUnknown
  | Some _ => Err EInvalidDataType
  end.
(** 80-83 TryCreateFromObject, 375-409 tryCreateField: every type gives a field *)
Definition make_field (fuel : nat) (look : heap) (o : obj) : res bool := do _ <- field_type fuel look o; Ok true.

(** 455-490 init *)
Definition init_field (h : heap) (r : ref) (k : kind) : res heap :=
  let ft n h := set_key h r (bs "FT") (OName n) in
  let ff z h := set_key h r (bs "Ff") (ONum z) in
  match k with
  | KCheck => ft (bs "Btn") h
  | KPush => do h <- ft (bs "Btn") h; ff f_push h
  | KRadio => do h <- ft (bs "Btn") h; ff (Z.lor f_radio f_no_toggle) h
  | KText => ft (bs "Tx") h
  | KList => ft (bs "Ch") h
  | KCombo => do h <- ft (bs "Ch") h; ff f_combo h
  | KSig => ft (bs "Sig") h
  | KUnknown => Err EInternalLogic
  end.
(** 30-68 the constructors with the object [r], a new dictionary or that of a widget, and what the classes do after it:
    PdfTextBox.cpp 32-36, PdfPushButton.cpp 32-36, PdfComboBox.cpp 14-24, PdfListBox.cpp 13-23. /SigFlags of the form
    (PdfSignature.cpp 49-55) is left out. 269-291, 293-322 createField *)
Definition new_field (fuel : nat) (h : heap) (r : ref) (k : kind) (parent : option ref) : res heap :=
  match k with
  | KUnknown => Err EInternalLogic
  | _ =>
    do h <- match parent with None => init_field h r k | Some p => set_key h r (bs "Parent") (to_ref p) end;
    match k with
    | KPush => set_flag fuel h r f_push true
    | KCombo => set_flag fuel h r f_combo true
    | KList => set_flag fuel h r f_combo false
    | KText =>
      do d <- dict_at h r;
      if has_key (bs "DS") d then Ok h else set_key h r (bs "DS") (OStr false (bs "font: 12pt Helvetica"))
    | _ => Ok h
    end
  end.

(** 22-23 CHECK_FIELD_NAME: runtime_error, written EInternalLogic *)
Definition check_name (n : list Z) : res unit := if existsb (Z.eqb 46) n then Err EInternalLogic else Ok tt.
(** 615-631 SetName, setName *)
Definition set_name (h : heap) (r : ref) (n : option (list Z)) : res heap :=
  match n with
  | Some n => do _ <- check_name n; set_key h r (bs "T") (OStr false n)
  | None => do d <- dict_at h r; Ok (set r (Some (ODict (snd (remove_key (bs "T") d)))) h)
  end.
(** 643-651 GetName; 653-661 GetNameRaw *)
Definition get_name (fuel : nat) (h : heap) (r : ref) : res (option (list Z)) :=
  do d <- dict_at h r;
  do o <- find_key_parent fuel h (bs "T") d;
  Ok (match o with Some (OStr _ s) => Some s | _ => None end).
Definition get_name_raw (h : heap) (r : ref) : res (option (list Z)) :=
  do d <- dict_at h r;
  Ok (match get_key (bs "T") d with Some (OStr _ s) => Some s | _ => None end).
(** 853-869: every period is doubled *)
Definition escape_name (n : list Z) : list Z := flat_map (fun c => if c =? 46 then [46; 46] else [c]) n.
(** 842-876 getFullName; GetKey does not follow a reference *)
Fixpoint full_name_of (fuel : nat) (h : heap) (o : obj) (esc : bool) (full : list Z) : res (list Z) :=
  match fuel with
  | O => Fuel
  | S f =>
    do d <- as_dict o;
    do full <- match dict_find h (bs "Parent") d with Some p => full_name_of f h p esc full | None => Ok full end;
    match get_key (bs "T") d with
    | None => Ok full
    | Some t =>
      do n <- as_text t;
      let n := if esc then escape_name n else n in
      Ok (match full with [] => n | _ => full ++ 46 :: n end)
    end
  end.
(** 663-668 GetFullName *)
Definition full_name (fuel : nat) (h : heap) (r : ref) (esc : bool) : res (list Z) :=
  match h r with Some o => full_name_of fuel h o esc [] | None => UB end.

(** 568-613 SetHighlightingMode, GetHighlightingMode *)
Inductive mode := MNone | MInvert | MOutline | MPush | MUnknown.
Definition set_mode (h : heap) (r : ref) (m : mode) : res heap :=
  match m with
  | MNone => set_key h r (bs "H") (OName (bs "N"))
  | MInvert => set_key h r (bs "H") (OName (bs "I"))
  | MOutline => set_key h r (bs "H") (OName (bs "O"))
  | MPush => set_key h r (bs "H") (OName (bs "P"))
  | MUnknown => Err EInvalidName
  end.
Definition get_mode (h : heap) (r : ref) : res mode :=
  do d <- dict_at h r;
  if has_key (bs "H") d then
    match dict_find h (bs "H") d with
    | None => Err ENoObject
    | Some (OName n) =>
      Ok (if beq n (bs "N") then MNone else if beq n (bs "I") then MInvert else if beq n (bs "O") then MOutline
          else if beq n (bs "P") then MPush else MInvert)
    | Some _ => Err EInvalidDataType
    end
  else Ok MInvert.

(** The value of the entry [k], where FindKey finds it, is replaced *)
Definition put_found (h : heap) (r : ref) (k : list Z) (v : obj) : res heap :=
  do d <- dict_at h r;
  match get_key k d with
  | Some (ORef n g) => Ok (set (n, g) (Some v) h)
  | _ => set_key h r k v
  end.
(** 745-803 Set…Action: the names of the entries *)
Inductive trigger := TMouseEnter | TMouseLeave | TMouseDown | TMouseUp | TFocusEnter | TFocusLeave | TPageOpen | TPageClose
  | TPageVisible | TPageInvisible | TKeystroke | TValidate.
Definition trigger_name (t : trigger) : list Z :=
  match t with
  | TMouseEnter => bs "E" | TMouseLeave => bs "X" | TMouseDown => bs "D" | TMouseUp => bs "U" | TFocusEnter => bs "Fo"
  | TFocusLeave => bs "BI" | TPageOpen => bs "PO" | TPageClose => bs "PC" | TPageVisible => bs "PV" | TPageInvisible => bs "PI"
  | TKeystroke => bs "K" | TValidate => bs "V"
  end.
(** 706-713 addAlternativeAction with the object [a] *)
Definition set_action (h : heap) (r : ref) (t : trigger) (a : ref) : res heap :=
  do d <- dict_at h r;
  match dict_find h (bs "AA") d with
  | None => set_key h r (bs "AA") (ODict [(trigger_name t, to_ref a)])
  | Some (ODict aa) => put_found h r (bs "AA") (ODict (add_key (trigger_name t) (to_ref a) aa))
  | Some _ => Err EInvalidDataType
  end.

(** 497-504 AssertTerminalField *)
Definition terminal (d : list (list Z * obj)) : res unit := if has_key (bs "Kids") d then Err EInternalLogic else Ok tt.

(** ** PdfTextBox.cpp *)

(** 70-73 SetMaxLen; 75-83 GetMaxLen: TryGetNumber gives 0 with another type *)
Definition set_max_len (h : heap) (r : ref) (n : Z) : res heap := set_key h r (bs "MaxLen") (ONum n).
Definition get_max_len (fuel : nat) (h : heap) (r : ref) : res Z :=
  do d <- dict_at h r;
  do o <- find_key_parent fuel h (bs "MaxLen") d;
  Ok (match o with None => -1 | Some (ONum _) => -1 | Some _ => 0 end).
(** 145-153 SetRichText, IsRichText *)
Definition is_rich (fuel : nat) (h : heap) (r : ref) : res bool := get_flag fuel h r f_rich false.
Definition text_key (rich : bool) : list Z := if rich then bs "RV" else bs "V".
(** 38-56 SetText; (unsigned) of the length *)
Definition set_text (fuel : nat) (h : heap) (r : ref) (t : option (list Z)) : res heap :=
  do d <- dict_at h r;
  do _ <- terminal d;
  do rich <- is_rich fuel h r;
  match t with
  | Some s =>
    do m <- get_max_len fuel h r;
    if negb (m =? -1) && (u32 m <? Z.of_nat (length s)) then Err EValueOutOfRange
    else set_key h r (text_key rich) (OStr false s)
  | None => Ok (set r (Some (ODict (snd (remove_key (text_key rich) d)))) h)
  end.
(** 58-68 GetText *)
Definition get_text (fuel : nat) (h : heap) (r : ref) : res (option (list Z)) :=
  do d <- dict_at h r;
  do _ <- terminal d;
  do rich <- is_rich fuel h r;
  do o <- find_key_parent fuel h (text_key rich) d;
  Ok (match o with Some (OStr _ s) => Some s | _ => None end).
(** 115-123 and PdfChoiceField.cpp 180-188; 125-133 *)
Definition set_spell (fuel : nat) (h : heap) (r : ref) (on : bool) : res heap := set_flag fuel h r f_no_spell (negb on).
Definition is_spell (fuel : nat) (h : heap) (r : ref) : res bool := get_flag fuel h r f_no_spell true.
Definition set_scroll (fuel : nat) (h : heap) (r : ref) (on : bool) : res heap := set_flag fuel h r f_no_scroll (negb on).
Definition is_scroll (fuel : nat) (h : heap) (r : ref) : res bool := get_flag fuel h r f_no_scroll true.

(** ** PdfCheckBox.cpp *)

(** 51-55 SetChecked; 57-73 IsChecked *)
Definition set_checked (h : heap) (r : ref) (on : bool) : res heap :=
  let v := OName (if on then bs "Yes" else bs "Off") in
  do h <- set_key h r (bs "V") v; set_key h r (bs "AS") v.
Definition is_checked (h : heap) (r : ref) : res bool :=
  do d <- dict_at h r;
  let state k :=
    match dict_find h k d with
    | None => Err ENoObject
    | Some (OName n) => Ok (beq n (bs "Yes") || beq n (bs "On"))
    | Some _ => Err EInvalidDataType
    end in
  if has_key (bs "V") d then state (bs "V") else if has_key (bs "AS") d then state (bs "AS") else Ok false.

(** ** PdfChoiceField.cpp *)

Definition opt_array (h : heap) (r : ref) : res (option (list obj)) :=
  do d <- dict_at h r;
  match dict_find h (bs "Opt") d with
  | None => Ok None
  | Some (OArr l) => Ok (Some l)
  | Some _ => Err EInvalidDataType
  end.
(** PdfArray.cpp findAt, MustFindAt *)
Definition must_find_at (h : heap) (l : list obj) (i : nat) : res obj :=
  match nth_error l i with
  | None => Err EValueOutOfRange
  | Some (ORef n g) => match h (n, g) with Some v => Ok v | None => Err ENoObject end
  | Some v => Ok v
  end.
(** 33-56 InsertItem *)
Definition insert_item (h : heap) (r : ref) (v : list Z) (display : option (list Z)) : res heap :=
  let o := match display with Some t => OArr [OStr false v; OStr false t] | None => OStr false v end in
  do l <- opt_array h r;
  match l with
  | None => set_key h r (bs "Opt") (OArr [o])
  | Some l => put_found h r (bs "Opt") (OArr (l ++ [o]))
  end.
(** 58-69 RemoveItem *)
Definition remove_item (h : heap) (r : ref) (i : nat) : res heap :=
  do l <- opt_array h r;
  match l with
  | None => Ok h
  | Some l => if (length l <=? i)%nat then Err EValueOutOfRange else put_found h r (bs "Opt") (OArr (firstn i l ++ skipn (S i) l))
  end.
(** 81-93 and 108-120: part [j] of an item; references to items are not followed *)
Definition item_part (h : heap) (j : nat) (o : obj) : res (list Z) :=
  match o with
  | OArr a => if (length a <? 2)%nat then Err EInvalidDataType else do v <- must_find_at h a j; as_text v
  | o => as_text o
  end.
(** 71-94 GetItem; the index is an unsigned *)
Definition get_item (h : heap) (r : ref) (i : Z) : res (list Z) :=
  do l <- opt_array h r;
  match l with
  | None => Err EInvalidHandle
  | Some l =>
    if Z.of_nat (length l) <=? i then Err EValueOutOfRange
    else match nth_error l (Z.to_nat i) with Some o => item_part h 0 o | None => UB end
  end.
(** 96-121 GetItemDisplayText *)
Definition get_display (h : heap) (r : ref) (i : Z) : res (option (list Z)) :=
  do l <- opt_array h r;
  match l with
  | None => Ok None
  | Some l =>
    if (i <? 0) || (Z.of_nat (length l) <=? i) then Err EValueOutOfRange
    else match nth_error l (Z.to_nat i) with Some o => do t <- item_part h 1 o; Ok (Some t) | None => UB end
  end.
(** 123-130 GetItemCount *)
Definition item_count (h : heap) (r : ref) : res Z :=
  do l <- opt_array h r; Ok (match l with None => 0 | Some l => Z.of_nat (length l) end).
(** 132-137 SetSelectedIndex: int to unsigned *)
Definition set_selected (h : heap) (r : ref) (i : Z) : res heap :=
  do d <- dict_at h r;
  do _ <- terminal d;
  do t <- get_item h r (u32 i);
  set_key h r (bs "V") (OStr false t).
(** 152-170: the loop of GetSelectedIndex *)
Fixpoint find_value (h : heap) (v : list Z) (l : list obj) (i : Z) : res Z :=
  match l with
  | [] => Ok (-1)
  | o :: t =>
    do o <- must_find_at h [o] 0;
    match o with
    | OStr _ s => if beq s v then Ok i else find_value h v t (i + 1)
    | OArr a => do x <- must_find_at h a 0; do s <- as_text x; if beq s v then Ok i else find_value h v t (i + 1)
    | _ => Err EInvalidDataType
    end
  end.
(** 139-173 GetSelectedIndex *)
Definition get_selected (h : heap) (r : ref) : res Z :=
  do d <- dict_at h r;
  do _ <- terminal d;
  match dict_find h (bs "V") d with
  | Some (OStr _ v) =>
    do l <- opt_array h r;
    match l with None => Ok (-1) | Some l => find_value h v l 0 end
  | _ => Ok (-1)
  end.
