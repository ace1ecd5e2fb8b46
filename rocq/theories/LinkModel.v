(** Destinations, actions and what holds them: src/pdfmm/base/PdfDestination.cpp, PdfAction.cpp, the destination and the action of
    PdfOutlines.cpp (PdfOutlineItem), PdfAnnotationActionBase.cpp and PdfAnnotation_Types.cpp (PdfAnnotationLink). The objects of the
    document are a map from references to values. Doubles are decimal fractions, which every finite double is: sums are exact,
    infinities and NaN are left out. *)
From Coq Require Import String QArith.
From Verif Require Import Base TokModel OwnModel ListModel PageModel.
Local Open Scope Z_scope.

(** ** Pointers to objects *)

(** A PdfObject pointer: an indirect object, or the value of a key of the dictionary it points into *)
Inductive loc := At (r : ref) | In (l : loc) (k : list Z).
Fixpoint read (h : heap) (l : loc) : option obj :=
  match l with
  | At r => h r
  | In l k => match read h l with Some (ODict d) => get_key k d | _ => None end
  end.
(** Assignment of the object; of a key that is there, or AddKey (PdfDictionary.cpp 105-121) *)
Fixpoint write (h : heap) (l : loc) (v : obj) : heap :=
  match l with
  | At r => PageModel.set r (Some v) h
  | In l k => match read h l with Some (ODict d) => write h l (ODict (add_key k v d)) | _ => h end
  end.
(** PdfDictionary.cpp 134-146 findKey, as a pointer *)
Definition find_loc (h : heap) (l : loc) (k : list Z) : option loc :=
  match read h (In l k) with
  | None => None
  | Some (ORef n g) => match h (n, g) with Some _ => Some (At (n, g)) | None => None end
  | Some _ => Some (In l k)
  end.
(** PdfObject::GetArray and GetDictionary of a valid pointer *)
Definition array_at (h : heap) (l : loc) : res (list obj) :=
  match read h l with Some (OArr a) => Ok a | Some _ => Err EInvalidDataType | None => UB end.
Definition dict_of (h : heap) (l : loc) : res (list (list Z * obj)) :=
  match read h l with Some (ODict d) => Ok d | Some _ => Err EInvalidDataType | None => UB end.

(** ** Numbers *)

(** The decimal fraction m / 10^k *)
Definition dec : Type := Z * nat.
Definition dadd (a b : dec) : dec := (fst a * 10 ^ Z.of_nat (snd b) + fst b * 10 ^ Z.of_nat (snd a), (snd a + snd b)%nat).
(** PdfVariant::PdfVariant(double) *)
Definition real (a : dec) : obj := OReal (fst a) (snd a).
(** PdfVariant.cpp 567-591 GetReal *)
Definition get_real (o : obj) : res dec := match o with ONum z => Ok (z, 0%nat) | OReal m k => Ok (m, k) | _ => Err EInvalidDataType end.
(** PdfRect: m_Left, m_Bottom, m_Width, m_Height *)
Record drect := mk_drect { dl : dec; db : dec; dw : dec; dh : dec }.
(** PdfRect.cpp 49-56 ToArray *)
Definition rect_array (r : drect) : list obj := [real (dl r); real (db r); real (dadd (dw r) (dl r)); real (dadd (dh r) (db r))].

(** ** PdfDestination.cpp *)

(** PdfDestination.h 18-27 PdfDestinationFit, 33-45 PdfDestinationType *)
Inductive fit := FUnknown | FFit | FFitH | FFitV | FFitB | FFitBH | FFitBV.
Inductive dtype := TUnknown | TXYZ | TFit | TFitH | TFitV | TFitR | TFitB | TFitBH | TFitBV.
(** The arrays of the constructors. 29-41 page and fit: the name stays empty for the other kinds of fit *)
Definition dest_fit (page : ref) (f : fit) : list obj :=
  [to_ref page; OName (match f with FFit => bs "Fit" | FFitB => bs "FitB" | _ => [] end)].
(** 43-53 page and rectangle *)
Definition dest_rect (page : ref) (r : drect) : list obj := to_ref page :: OName (bs "FitR") :: rect_array r.
(** 55-64 page, left, top and zoom *)
Definition dest_xyz (page : ref) (left top zoom : dec) : list obj := [to_ref page; OName (bs "XYZ"); real left; real top; real zoom].
(** 66-85 page, fit and value *)
Definition dest_value (page : ref) (f : fit) (v : dec) : res (list obj) :=
  do n <- match f with
          | FFitH => Ok (bs "FitH") | FFitV => Ok (bs "FitV") | FFitBH => Ok (bs "FitBH") | FFitBV => Ok (bs "FitBV")
          | _ => Err EInvalidKey
          end;
  Ok [to_ref page; OName n; real v].
(** PdfArray.cpp 245-251 getAt *)
Definition at_ (arr : list obj) (i : nat) : res obj := match nth_error arr i with Some o => Ok o | None => Err EValueOutOfRange end.
(** 170-195 GetType *)
Definition dest_type (arr : list obj) : res dtype :=
  match arr with
  | [] => Ok TUnknown
  | _ =>
    do o <- at_ arr 1;
    match o with
    | OName n =>
      Ok (if beq n (bs "XYZ") then TXYZ else if beq n (bs "Fit") then TFit else if beq n (bs "FitH") then TFitH
          else if beq n (bs "FitV") then TFitV else if beq n (bs "FitR") then TFitR else if beq n (bs "FitB") then TFitB
          else if beq n (bs "FitBH") then TFitBH else if beq n (bs "FitBV") then TFitBV else TUnknown)
    | _ => Err EInvalidDataType
    end
  end.
Definition real_at (arr : list obj) (i : nat) : res dec := do o <- at_ arr i; get_real o.
(** 197-208 GetDValue *)
Definition get_dvalue (arr : list obj) : res dec :=
  do t <- dest_type arr;
  match t with TFitH | TFitV | TFitBH => real_at arr 2 | _ => Err EWrongDestinationType end.
(** 210-221 GetLeft *)
Definition get_left (arr : list obj) : res dec :=
  do t <- dest_type arr;
  match t with TFitV | TXYZ | TFitR => real_at arr 2 | _ => Err EWrongDestinationType end.
(** 223-231 GetRect; PdfRect.cpp 24-28 *)
Definition get_rect (arr : list obj) : res drect :=
  do t <- dest_type arr;
  match t with
  | TFitR => do a <- real_at arr 2; do b <- real_at arr 3; do c <- real_at arr 4; do d <- real_at arr 5; Ok (mk_drect a b c d)
  | _ => Err EWrongDestinationType
  end.
(** 233-256 GetTop *)
Definition get_top (arr : list obj) : res dec :=
  do t <- dest_type arr;
  match t with TXYZ => real_at arr 3 | TFitH | TFitBH => real_at arr 2 | TFitR => real_at arr 5 | _ => Err EWrongDestinationType end.
(** 258-264 GetZoom *)
Definition get_zoom (arr : list obj) : res dec :=
  do t <- dest_type arr;
  match t with TXYZ => real_at arr 4 | _ => Err EWrongDestinationType end.
(** 160-168 GetPage: the reference that is looked up among the pages; [None]: a null pointer *)
Definition get_page_ref (arr : list obj) : res (option ref) :=
  match arr with
  | [] => Ok None
  | ORef n g :: _ => Ok (Some (n, g))
  | _ => Err EInvalidDataType
  end.
(** 128-144: the end of Create *)
Definition resolve (h : heap) (l : option loc) : res loc :=
  match l with
  | None => Err EInvalidName
  | Some l =>
    match read h l with
    | Some (OArr _) => Ok l
    | Some (ODict _) =>
      match find_loc h l (bs "D") with
      | None => Err ENoObject
      | Some m => do _ <- array_at h m; Ok m
      end
    | _ => Err EInvalidDataType
    end
  end.
(** 87-144 Create, in a PdfMemDocument with the catalog [cat]. [names] is what PdfNameTree::GetValue finds under "Dests";
    [None]: GetNames gives a null pointer *)
Definition create (h : heap) (cat : ref) (names : option (list Z -> option loc)) (l : loc) : res loc :=
  match read h l with
  | Some (OArr _) => Ok l
  | Some (OStr _ s) => match names with None => Err ENoObject | Some f => resolve h (f s) end
  | Some (OName n) =>
    match find_loc h (At cat) (bs "Dests") with
    | None => Err EInvalidKey
    | Some d => do _ <- dict_of h d; resolve h (find_loc h d n)
    end
  | Some _ => Err EInvalidDataType
  | None => UB
  end.
(** 146-158 AddToDictionary: the array is copied. ActionAlreadyPresent is taken as EInvalidHandle *)
Definition add_dest (h : heap) (r : ref) (d : loc) : res heap :=
  do arr <- array_at h d;
  match arr with
  | [] => Ok h
  | _ => do e <- dict_at h r; if has_key (bs "A") e then Err EInvalidHandle else set_key h r (bs "Dest") (OArr arr)
  end.

(** ** PdfAction.cpp *)

(** 14-34 s_names without the null pointer of Unknown; PdfAction.h 30-52 PdfActionType in the same order, from 1,
    followed there by RichMediaExecute *)
Definition action_names : list (list Z) :=
  [bs "GoTo"; bs "GoToR"; bs "GoToE"; bs "Launch"; bs "Thread"; bs "URI"; bs "Sound"; bs "Movie"; bs "Hide"; bs "Named"; bs "SubmitForm";
   bs "ResetForm"; bs "ImportData"; bs "JavaScript"; bs "SetOCGState"; bs "Rendition"; bs "Trans"; bs "GoTo3DView"].
(** PdfDeclarationsPrivate.cpp 647-650 TypeNameForIndex; None: a null pointer *)
Definition action_name (t : Z) : option (list Z) := if t <=? 0 then None else nth_error action_names (Z.to_nat t - 1).
(** 36-44: the object of a new action. PdfName(const char* ) calls strlen, PdfName.cpp 40-43 *)
Definition new_action (t : Z) : res obj :=
  match action_name t with
  | None => UB
  | Some n => Ok (ODict (add_key (bs "S") (OName n) (add_key (bs "Type") (OName (bs "Action")) [])))
  end.
(** PdfDeclarationsPrivate.cpp 652-664 TypeNameToIndex; strcmp compares up to the first null byte *)
Fixpoint c_str (s : list Z) : list Z := match s with [] => [] | 0 :: _ => [] | c :: t => c :: c_str t end.
Fixpoint index_of (s : list Z) (names : list (list Z)) (i : Z) : Z :=
  match names with [] => 0 | n :: t => if beq (c_str s) n then i else index_of s t (i + 1) end.
(** 46-53: the type that an action read from an object gets *)
Definition action_type (h : heap) (l : loc) : res Z :=
  do d <- dict_of h l;
  match dict_find h (bs "S") d with
  | None => Ok 0
  | Some (OName n) => Ok (index_of n action_names 1)
  | Some _ => Err EInvalidDataType
  end.
(** 55-83 SetURI and SetScript, GetURI and GetScript, HasURI, HasScript *)
Definition set_text (h : heap) (l : loc) (k : list Z) (s : list Z) : res heap :=
  do d <- dict_of h l; Ok (write h l (ODict (add_key k (OStr false s) d))).
Definition get_text (h : heap) (l : loc) (k : list Z) : res (list Z) :=
  do d <- dict_of h l;
  match dict_find h k d with None => Err ENoObject | Some (OStr _ s) => Ok s | Some _ => Err EInvalidDataType end.
Definition has_uri (h : heap) (l : loc) : res bool :=
  do d <- dict_of h l; Ok (match dict_find h (bs "URI") d with Some _ => true | None => false end).
Definition has_script (h : heap) (l : loc) : res bool := do d <- dict_of h l; Ok (has_key (bs "JS") d).
(** 85-93 AddToDictionary: the dictionary is copied *)
Definition add_action (h : heap) (r : ref) (a : loc) : res heap :=
  do v <- match read h a with Some v => Ok v | None => UB end;
  do e <- dict_at h r;
  if has_key (bs "Dest") e then Err EInvalidHandle else set_key h r (bs "A") v.

(** ** Outline items and links *)

(** The dictionary, m_destination and m_action *)
Record holder := mk_holder { hr : ref; hdest : option loc; hact : option loc }.
Definition fresh (r : ref) : holder := mk_holder r None None.
(** PdfOutlines.cpp 249-253 and PdfAnnotation_Types.cpp 16-20 SetDestination *)
Definition set_dest (h : heap) (o : holder) (d : loc) : res (heap * holder) :=
  do h <- add_dest h (hr o) d; Ok (h, mk_holder (hr o) (Some d) (hact o)).
(** PdfOutlines.cpp 275-279 SetAction *)
Definition item_set_action (h : heap) (o : holder) (a : loc) : res (heap * holder) :=
  do h <- add_action h (hr o) a; Ok (h, mk_holder (hr o) (hdest o) (Some a)).
(** PdfAnnotationActionBase.cpp 24-28 SetAction; an action that is no indirect object has the reference 0 0 *)
Definition link_set_action (h : heap) (o : holder) (a : loc) : res (heap * holder) :=
  do h <- set_key h (hr o) (bs "A") (match a with At r => to_ref r | In _ _ => ORef 0 0 end);
  Ok (h, mk_holder (hr o) (hdest o) (Some a)).
(** PdfOutlines.cpp 260-273 getDestination *)
Definition item_get_dest (h : heap) (cat : ref) (names : option (list Z -> option loc)) (o : holder) : res (option loc * holder) :=
  match hdest o with
  | Some d => Ok (Some d, o)
  | None =>
    do _ <- dict_at h (hr o);
    match find_loc h (At (hr o)) (bs "Dest") with
    | None => Ok (None, o)
    | Some l => do d <- create h cat names l; Ok (Some d, mk_holder (hr o) (Some d) (hact o))
    end
  end.
(** PdfAnnotation_Types.cpp 27-39 getDestination *)
Definition link_get_dest (h : heap) (o : holder) : res (option loc * holder) :=
  match hdest o with
  | Some d => Ok (Some d, o)
  | None =>
    do _ <- dict_at h (hr o);
    match find_loc h (At (hr o)) (bs "Dest") with
    | None => Ok (None, o)
    | Some l => do _ <- array_at h l; Ok (Some l, mk_holder (hr o) (Some l) (hact o))
    end
  end.
(** PdfOutlines.cpp 286-298, PdfAnnotationActionBase.cpp 36-48 getAction; the type of the action is kept by it and left out *)
Definition get_action (h : heap) (o : holder) : res (option loc * holder) :=
  match hact o with
  | Some a => Ok (Some a, o)
  | None =>
    do _ <- dict_at h (hr o);
    match find_loc h (At (hr o)) (bs "A") with
    | None => Ok (None, o)
    | Some l => do _ <- action_type h l; Ok (Some l, mk_holder (hr o) (hdest o) (Some l))
    end
  end.
