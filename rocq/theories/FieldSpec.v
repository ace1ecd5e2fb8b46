(** Vocabulary of the properties of form fields (ISO 32000-1, 12.7). *)
From Coq Require Import String.
From Verif Require Import Base TokModel DictProofs OwnModel OwnSpec ListModel PageModel FieldModel.
Local Open Scope Z_scope.

(** ** Flags: the number of the nearest /Ff, 0 without one *)
Inductive flags_in (look : heap) (d : list (list Z * obj)) : Z -> Prop :=
| fl_num z : inherits look (bs "Ff") d (Some (ONum z)) -> flags_in look d z
| fl_none : inherits look (bs "Ff") d None -> flags_in look d 0.
(** Tables 221, 226, 228 and 230: the position of the bit of a flag, the lowest bit has position 1 *)
Inductive flag := ReadOnly | Required | NoExport | Multiline | Password | NoToggleToOff | Radio | Pushbutton | Combo | Edit | Sort
  | FileSelect | MultiSelect | DoNotSpellCheck | DoNotScroll | Comb | RichText | CommitOnSelChange.
Definition position (f : flag) : Z :=
  match f with
  | ReadOnly => 1 | Required => 2 | NoExport => 3 | Multiline => 13 | Password => 14 | NoToggleToOff => 15 | Radio => 16
  | Pushbutton => 17 | Combo => 18 | Edit => 19 | Sort => 20 | FileSelect => 21 | MultiSelect => 22 | DoNotSpellCheck => 23
  | DoNotScroll => 24 | Comb => 25 | RichText => 26 | CommitOnSelChange => 27
  end.
Definition has_flag (z : Z) (f : flag) : bool := Z.testbit z (position f - 1).
(** The number that the code has for a flag *)
Definition code_of (f : flag) : Z :=
  match f with
  | ReadOnly => f_read_only | Required => f_required | NoExport => f_no_export | Multiline => f_multi_line | Password => f_password
  | NoToggleToOff => f_no_toggle | Radio => f_radio | Pushbutton => f_push | Combo => f_combo | Edit => f_edit | Sort => f_sort
  | FileSelect => f_file | MultiSelect => f_multi_select | DoNotSpellCheck => f_no_spell | DoNotScroll => f_no_scroll
  | Comb => f_comb | RichText => f_rich | CommitOnSelChange => f_commit
  end.

(** ** Kinds of fields *)
Inductive kind_is (look : heap) (d : list (list Z * obj)) : kind -> Prop :=
| ki_push z : inherits look (bs "FT") d (Some (OName (bs "Btn"))) -> flags_in look d z -> has_flag z Pushbutton = true -> kind_is look d KPush
| ki_radio z : inherits look (bs "FT") d (Some (OName (bs "Btn"))) -> flags_in look d z -> has_flag z Pushbutton = false -> has_flag z Radio = true -> kind_is look d KRadio
| ki_check z : inherits look (bs "FT") d (Some (OName (bs "Btn"))) -> flags_in look d z -> has_flag z Pushbutton = false -> has_flag z Radio = false -> kind_is look d KCheck
| ki_text : inherits look (bs "FT") d (Some (OName (bs "Tx"))) -> kind_is look d KText
| ki_combo z : inherits look (bs "FT") d (Some (OName (bs "Ch"))) -> flags_in look d z -> has_flag z Combo = true -> kind_is look d KCombo
| ki_list z : inherits look (bs "FT") d (Some (OName (bs "Ch"))) -> flags_in look d z -> has_flag z Combo = false -> kind_is look d KList
| ki_sig : inherits look (bs "FT") d (Some (OName (bs "Sig"))) -> kind_is look d KSig
| ki_none : inherits look (bs "FT") d None -> kind_is look d KUnknown.
(** the flags that tell the kinds of one type apart *)
Definition kind_flag (f : flag) : bool := match f with Pushbutton | Radio | Combo => true | _ => false end.
(** A dictionary and those above it *)
Inductive above (look : heap) (d : list (list Z * obj)) : list (list Z * obj) -> Prop :=
| ab_here : above look d d
| ab_up p a : entry look d (bs "Parent") (ODict p) -> above look p a -> above look d a.
(** The object [r] is not used by a dictionary and those above it for these entries *)
Definition without (look : heap) (r : ref) (ks : list (list Z)) (d : list (list Z * obj)) : Prop :=
  forall a k, above look d a -> In k (bs "Parent" :: ks) -> get_key k a <> Some (ORef (fst r) (snd r)).
(** Field [r] has the dictionary [d]; keys are in order, as in a std::map *)
Definition at_dict (h : heap) (r : ref) (d : list (list Z * obj)) : Prop := h r = Some (ODict d) /\ DictProofs.sorted d.
(** Nothing but the object [r] is changed; nothing but these entries *)
Definition changed_only (h h' : heap) (r : ref) : Prop := forall q, q <> r -> h' q = h q.
Definition same_but (ks : list (list Z)) (d d' : list (list Z * obj)) : Prop := forall k, ~ In k ks -> get_key k d' = get_key k d.
(** The entries that tell the kind; those that a new field is given *)
Definition kind_keys : list (list Z) := [bs "FT"; bs "Ff"].
Definition new_keys : list (list Z) := [bs "FT"; bs "Ff"; bs "DS"; bs "Parent"].
(** The object [r], a dictionary [d], is made a field of kind [k] *)
Definition made (h : heap) (r : ref) (d : list (list Z * obj)) (k : kind) (res_ : nat -> res heap) : Prop :=
  exists n h' d', (forall fuel, (n <= fuel)%nat -> res_ fuel = Ok h') /\ at_dict h' r d' /\ kind_is h' d' k /\ changed_only h h' r /\ same_but new_keys d d'.

(** ** Names: the partial names from the root down *)
Inductive own_name : list (list Z * obj) -> list (list Z) -> Prop :=
| on_none d : get_key (bs "T") d = None -> own_name d []
| on_some d hx s : get_key (bs "T") d = Some (OStr hx s) -> own_name d [s].
Inductive lineage (look : heap) : obj -> list (list Z) -> Prop :=
| li_root d t : (forall p, ~ entry look d (bs "Parent") p) -> own_name d t -> lineage look (ODict d) t
| li_child d p ns t : entry look d (bs "Parent") p -> lineage look p ns -> own_name d t -> lineage look (ODict d) (ns ++ t).
(** joined by periods *)
Inductive dotted : list (list Z) -> list Z -> Prop :=
| do_none : dotted [] []
| do_one n : dotted [n] n
| do_more n m t x : dotted (m :: t) x -> dotted (n :: m :: t) (n ++ 46 :: x).
(** every period doubled *)
Inductive doubled : list Z -> list Z -> Prop :=
| db_nil : doubled [] []
| db_dot a b : doubled a b -> doubled (46 :: a) (46 :: 46 :: b)
| db_other c a b : c <> 46 -> doubled a b -> doubled (c :: a) (c :: b).
Definition starts_with_dot (n : list Z) : Prop := exists t, n = 46 :: t.

(** ** Choice fields: export value and shown text of every item *)
Inductive shown : obj -> list Z * list Z -> Prop :=
| sh_plain h s : shown (OStr h s) (s, s)
| sh_pair h s h' t rest : shown (OArr (OStr h s :: OStr h' t :: rest)) (s, t).
(** where /Opt is: absent, in the dictionary, or an object *)
Inductive options (h : heap) (r : ref) : list (list Z * list Z) -> Prop :=
| op_none d : at_dict h r d -> get_key (bs "Opt") d = None -> options h r []
| op_direct d l its : at_dict h r d -> get_key (bs "Opt") d = Some (OArr l) -> Forall2 shown l its -> options h r its
| op_indirect d n g l its : at_dict h r d -> get_key (bs "Opt") d = Some (ORef n g) -> h (n, g) = Some (OArr l) -> Forall2 shown l its -> options h r its.
(** what /Opt names is an object of its own *)
Definition opt_object (h : heap) (r q : ref) : Prop := exists d, h r = Some (ODict d) /\ get_key (bs "Opt") d = Some (ORef (fst q) (snd q)).
(** an item that is inserted: without a text to show, its value is shown *)
Definition item_value (v : list Z) (t : option (list Z)) : list Z * list Z := (v, match t with Some t => t | None => v end).
(** the first position of a value *)
Inductive first_with (v : list Z) : list (list Z * list Z) -> nat -> Prop :=
| fw_here t its : first_with v ((v, t) :: its) 0
| fw_next x its n : fst x <> v -> first_with v its n -> first_with v (x :: its) (S n).

(** ** Additional actions, ISO 32000-1 tables 194 and 196 *)
Definition trigger_key (t : trigger) : list Z :=
  bs match t with
     | TMouseEnter => "E" | TMouseLeave => "X" | TMouseDown => "D" | TMouseUp => "U" | TFocusEnter => "Fo" | TFocusLeave => "Bl"
     | TPageOpen => "PO" | TPageClose => "PC" | TPageVisible => "PV" | TPageInvisible => "PI" | TKeystroke => "K" | TValidate => "V"
     end%string.
(** The dictionary of additional actions *)
Definition actions (h : heap) (r : ref) (aa : list (list Z * obj)) : Prop := exists d, at_dict h r d /\ DictProofs.sorted aa /\
  (entry h d (bs "AA") (ODict aa) \/ ((forall v, ~ entry h d (bs "AA") v) /\ aa = [])).
