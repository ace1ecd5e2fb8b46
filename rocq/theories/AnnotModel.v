(** Annotations and file specifications: src/pdfmm/base/PdfAnnotation.cpp, parts of PdfAnnotation_Types.cpp, PdfFileSpec.cpp. An annotation
    is the reference of its dictionary. Strings are taken as the text that PdfString::GetString gives. Doubles are decimal fractions, as in
    LinkModel. A lookup in the parents recurses without a limit: Fuel means that it is still running. *)
From Coq Require Import String QArith.
From Verif Require Import Base TokModel OwnModel ListModel PageModel RectModel LinkModel.
Local Open Scope Z_scope.

(** ** The entries of annotations *)

Definition print_flag : Z := 4.
(** PdfAnnotation.cpp 23-41: the dictionary of a new annotation; [name] is the name of its type, as AnnotationTypeToName gives it
    (UtilModel.annot_name). The flags of the dictionary, which are none yet, are read before Print is added *)
Definition new_annot (page : ref) (name : list Z) (r : drect) : obj :=
  ODict (add_key (bs "F") (ONum (Z.lor 0 print_flag)) (add_key (bs "P") (to_ref page) (add_key (bs "Rect") (OArr (rect_array r))
    (add_key (bs "Subtype") (OName name) (add_key (bs "Type") (OName (bs "Annot")) []))))).
(** 48-54 GetRect; PdfRect.cpp 73-88 FromArray *)
Definition dq (a : dec) : Q := (inject_Z (fst a) / inject_Z (10 ^ Z.of_nat (snd a)))%Q.
Fixpoint reals (l : list obj) : res (list Q) :=
  match l with [] => Ok [] | o :: t => do a <- get_real o; do r <- reals t; Ok (dq a :: r) end.
Definition annot_rect (h : heap) (r : ref) : res rect :=
  do d <- dict_at h r;
  if has_key (bs "Rect") d then
    match dict_find h (bs "Rect") d with
    | None => Err ENoObject
    | Some (OArr l) => if Nat.eqb (length l) 4 then do q <- reals l; from_array q else Err EValueOutOfRange
    | Some _ => Err EInvalidDataType
    end
  else Ok (mk_rect 0 0 0 0).
(** 56-61 SetRect *)
Definition set_rect (h : heap) (r : ref) (q : drect) : res heap := set_key h r (bs "Rect") (OArr (rect_array q)).
(** 279-282 SetFlags *)
Definition set_flags (h : heap) (r : ref) (f : Z) : res heap := set_key h r (bs "F") (ONum f).
(** 284-292 GetFlags *)
Definition get_flags (fuel : nat) (h : heap) (r : ref) : res Z :=
  do d <- dict_at h r;
  do o <- find_key_parent fuel h (bs "F") d;
  match o with Some (ONum n) => Ok (u32 n) | _ => Ok 0 end.
(** 313-319, 331-337: SetTitle and SetContents, under the keys T and Contents; a missing text removes the key *)
Definition drop_key (h : heap) (r : ref) (k : list Z) : res heap :=
  do d <- dict_at h r; Ok (PageModel.set r (Some (ODict (snd (remove_key k d)))) h).
Definition set_string (h : heap) (r : ref) (k : list Z) (s : option (list Z)) : res heap :=
  match s with Some s => set_key h r k (OStr false s) | None => drop_key h r k end.
(** 321-329, 339-347: GetTitle and GetContents *)
Definition get_string (fuel : nat) (h : heap) (r : ref) (k : list Z) : res (option (list Z)) :=
  do d <- dict_at h r;
  do o <- find_key_parent fuel h k d;
  match o with Some (OStr _ s) => Ok (Some s) | _ => Ok None end.
(** 294-311 SetBorderStyle *)
Definition set_border (h : heap) (r : ref) (x y w : dec) (dash : list obj) : res heap :=
  set_key h r (bs "Border") (OArr ([real x; real y; real w] ++ match dash with [] => [] | _ => [OArr dash] end)).
(** PdfAnnotation_Types.cpp 66-77 and 79-90: SetOpen and GetOpen; GetKeyAs does not follow a reference *)
Definition set_open (h : heap) (r : ref) (b : option bool) : res heap :=
  match b with Some b => set_key h r (bs "Open") (OBool b) | None => drop_key h r (bs "Open") end.
Definition get_open (h : heap) (r : ref) : res bool :=
  do d <- dict_at h r;
  match get_key (bs "Open") d with None => Ok false | Some (OBool b) => Ok b | Some _ => Err EInvalidDataType end.

(** ** Appearances *)

(** PdfDeclarations.h PdfAppearanceType; 370-383 GetAppearanceName *)
Inductive ap := Normal | Rollover | Down.
Definition ap_name (a : ap) : list Z := match a with Normal => bs "N" | Rollover => bs "R" | Down => bs "D" end.
(** The dictionary under a key, or a new one: "FindKey, and if it is no dictionary AddKey" of 77-79 and 88-90 *)
Definition need_dict (h : heap) (l : loc) (k : list Z) : heap * loc :=
  match find_loc h l k with
  | Some m => match read h m with Some (ODict _) => (h, m) | _ => (write h (In l k) (ODict []), In l k) end
  | None => (write h (In l k) (ODict []), In l k)
  end.
(** 63-100 SetAppearanceStreamForObject for the form with reference [x]; an empty name is no state. The resources that the form gets
    are left out, and it is in the same document *)
Definition set_appearance (h : heap) (r : ref) (x : ref) (a : ap) (state : list Z) : res heap :=
  do _ <- dict_at h r;
  let (h, apl) := need_dict h (At r) (bs "AP") in
  match state with
  | [] => Ok (write h (In apl (ap_name a)) (to_ref x))
  | _ =>
    let (h, inner) := need_dict h apl (ap_name a) in
    let h := write h (In inner state) (to_ref x) in
    do d <- dict_at h r;
    if has_key (bs "AS") d then Ok h else set_key h r (bs "AS") (OName state)
  end.
(** 268-277 getAppearanceDictionary; None: a null pointer *)
Definition ap_dict (h : heap) (r : ref) : res (option loc) :=
  do _ <- dict_at h r;
  match find_loc h (At r) (bs "AP") with
  | Some l => match read h l with Some (ODict _) => Ok (Some l) | _ => Ok None end
  | None => Ok None
  end.
(** 251-266 getAppearanceStream; None: a null pointer *)
Definition get_appearance (h : heap) (r : ref) (a : ap) (state : list Z) : res (option loc) :=
  do o <- ap_dict h r;
  match o with
  | None => Ok None
  | Some apl =>
    match find_loc h apl (ap_name a) with
    | None => Ok None
    | Some inn => match state with [] => Ok (Some inn) | _ => do _ <- dict_of h inn; Ok (find_loc h inn state) end
    end
  end.
(** PdfDictionary.h 491-508 resolve: a reference to nothing stands for itself *)
Definition follow (h : heap) (l : loc) (v : obj) : loc :=
  match v with ORef n g => match h (n, g) with Some _ => At (n, g) | None => l end | _ => l end.
(** PdfObject::HasStream: [st] tells which indirect objects have a stream *)
Definition has_stream (st : ref -> bool) (l : loc) : bool := match l with At r => st r | In _ _ => false end.
Fixpoint states (h : heap) (st : ref -> bool) (a : ap) (inn : loc) (d : list (list Z * obj)) : list (loc * ap * list Z) :=
  match d with
  | [] => []
  | (s, v) :: t => let l := follow h (In inn s) v in if has_stream st l then (l, a, s) :: states h st a inn t else states h st a inn t
  end.
(** 195-229 GetAppearanceStreams *)
Fixpoint appearances (h : heap) (st : ref -> bool) (apl : loc) (d : list (list Z * obj)) : list (loc * ap * list Z) :=
  match d with
  | [] => []
  | (k, v) :: t =>
    let here a :=
      let l := follow h (In apl k) v in
      if has_stream st l then [(l, a, [])] else match read h l with Some (ODict s) => states h st a l s | _ => [] end in
    (if beq k (bs "R") then here Rollover else if beq k (bs "D") then here Down else if beq k (bs "N") then here Normal else [])
    ++ appearances h st apl t
  end.
Definition get_appearances (h : heap) (st : ref -> bool) (r : ref) : res (list (loc * ap * list Z)) :=
  do o <- ap_dict h r;
  match o with
  | None => Ok []
  | Some apl => do d <- dict_of h apl; Ok (appearances h st apl d)
  end.

(** ** PdfFileSpec.cpp *)

Definition letter_digit (c : Z) : bool :=
  (97 <=? c) && (c <=? 122) || (65 <=? c) && (c <=? 90) || (48 <=? c) && (c <=? 57) || (c =? 95).
(** 71-106 CreateFileSpecification. Any other byte is formatted into a buffer that is neither initialised nor terminated
    (private/Format.h 28-31: format_to_n), and the buffer is put out as a C string: undefined *)
Fixpoint file_text (name : list Z) : res (list Z) :=
  match name with
  | [] => Ok []
  | c :: t =>
    let c := if (c =? 58) || (c =? 92) then 47 else c in
    if letter_digit c then do r <- file_text t; Ok (c :: r)
    else if c =? 47 then do r <- file_text t; Ok (92 :: 92 :: 47 :: r)
    else UB
  end.
(** 122-143 MaybeStripPath, not on Windows *)
Fixpoint last_part (name cur : list Z) : list Z :=
  match name with [] => cur | c :: t => if c =? 47 then last_part t t else last_part t cur end.
Definition strip_path (name : list Z) (strip : bool) : list Z := if strip then last_part name name else name.
(** 56-69 Init with data: the dictionary of the specification and of the embedded file, and the data of the latter; [x] is the reference
    that the embedded file gets. 145-153 EmbeddFileFromMem. The filters and the length of the stream are left out (StreamModel) *)
Definition new_file (name data : list Z) (strip : bool) (x : ref) : res (obj * obj * list Z) :=
  do f <- file_text (strip_path name strip);
  Ok (ODict (add_key (bs "EF") (ODict (add_key (bs "F") (to_ref x) [])) (add_key (bs "UF") (OStr false (strip_path name true))
        (add_key (bs "F") (OStr false f) (add_key (bs "Type") (OName (bs "Filespec")) [])))),
      ODict (add_key (bs "Params") (ODict (add_key (bs "Size") (ONum (Z.of_nat (length data))) [])) (add_key (bs "Type") (OName (bs "EmbeddedFile")) [])),
      data).
(** 155-164 GetFilename *)
Definition file_name (h : heap) (r : ref) (unicode : bool) : res (list Z) :=
  do d <- dict_at h r;
  let must k := match dict_find h k d with None => Err ENoObject | Some (OStr _ s) => Ok s | Some _ => Err EInvalidDataType end in
  if unicode && has_key (bs "UF") d then must (bs "UF")
  else if has_key (bs "F") d then must (bs "F")
  else Err EInvalidDataType.
