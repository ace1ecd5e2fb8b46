(** Indexed collections of annotations, form fields and children of a field: src/pdfmm/base/PdfAnnotationCollection.cpp,
    PdfFieldChildrenCollection.cpp and PdfAcroForm.cpp 65-247. The three classes have the same code; lines of
    PdfAnnotationCollection.cpp are given (A), of PdfAcroForm.cpp (F) and of PdfFieldChildrenCollection.cpp (K).
    Only the collection changes its array and the objects while it is used. *)
From Coq Require Import String.
From Verif Require Import Base TokModel OwnModel ListModel.
Local Open Scope Z_scope.

(** The object an item points to: an indirect object of the document or an element of the array *)
Inductive spot := SObj (r : ref) | SElem (i : nat).
(** PdfObject::GetIndirectReference; 0 0 for a direct object *)
Definition spot_ref (p : spot) : ref := match p with SObj r => r | SElem _ => (0, 0) end.
(** m_annotMap (A), m_fieldMap (F, K), None: nullptr; m_annotArray, m_fieldArray, m_kidsArray as the array it points to,
    None: nullptr; m_Annots, m_Fields, None: nullptr. [firm]: so many elements of the array are where they have been since
    the collection was read; pointers to others must not be used. *)
Record coll := mk_coll { imap : option (list (ref * Z)); arr : option (list obj); items : list (option spot); firm : nat }.
(** A A14-17, F20-31, K16-19 constructors *)
Definition fresh : coll := mk_coll None None [] 0.

(** std::map<PdfReference, unsigned>: find, operator[] with assignment, erase *)
Fixpoint map_find (r : ref) (m : list (ref * Z)) : option Z :=
  match m with
  | [] => None
  | (q, i) :: t => if ref_eqb q r then Some i else map_find r t
  end.
Fixpoint map_put (r : ref) (i : Z) (m : list (ref * Z)) : list (ref * Z) :=
  match m with
  | [] => [(r, i)]
  | (q, j) :: t => if ref_eqb q r then (q, i) :: t else (q, j) :: map_put r i t
  end.
Fixpoint map_erase (r : ref) (m : list (ref * Z)) : list (ref * Z) :=
  match m with
  | [] => []
  | (q, j) :: t => if ref_eqb q r then t else (q, j) :: map_erase r t
  end.
(** vector::erase of the element at an index *)
Definition erase_at {A} (i : nat) (l : list A) : list A := firstn i l ++ skipn (S i) l.
(** A179-188, F239-247, K188-197 fixIndices *)
Definition fix_indices (i : Z) (m : list (ref * Z)) : list (ref * Z) :=
  map (fun e => (fst e, if i <? snd e then snd e - 1 else snd e)) m.

(** What an operation gives or raises, and the collection after it *)
Definition out (A : Type) : Type := res A * coll.

Section Coll.
(** the objects of the document; what FindKey of /Annots, /Fields or /Kids gives; TryCreateFromObject on a value *)
Variable look : ref -> option obj.
Variable src : option obj.
Variable make : obj -> res bool.

(** PdfArray.h 463-480: what the iterator gives for the element [o] at index [i] *)
Definition resolve (o : obj) (i : nat) : spot * obj :=
  match o with
  | ORef n g =>
    if (n =? 0) && (g =? 0) then (SElem i, o)
    else match look (n, g) with Some v => (SObj (n, g), v) | None => (SElem i, o) end
  | _ => (SElem i, o)
  end.
(** A159-176, F223-236, K167-185: the loop. SetPage and SetParent are left out. *)
Fixpoint fill (l : list obj) (i : nat) (m : list (ref * Z)) (its : list (option spot)) : res unit * (list (ref * Z) * list (option spot)) :=
  match l with
  | [] => (Ok tt, (m, its))
  | o :: t =>
    let (p, v) := resolve o i in
    let m := map_put (spot_ref p) (Z.of_nat i) m in
    match make v with
    | Ok true => fill t (S i) m (its ++ [Some p])
    | Ok false => fill t (S i) m (its ++ [None])
    | Err e => (Err e, (m, its))
    | UB => (UB, (m, its))
    | Fuel => (Fuel, (m, its))
    end
  end.
(** A121-128, F202-209, K128-135 get…Array; A146-177, F211-237, K152-186 init… *)
Definition init (c : coll) : out unit :=
  match imap c with
  | Some _ => (Ok tt, c)
  | None =>
    match src with
    | None => (Ok tt, mk_coll (Some []) None (items c) (firm c))
    | Some (OArr l) =>
      let '(r, (m, its)) := fill l 0 [] (items c) in (r, mk_coll (Some m) (Some l) its (length l))
    | Some _ => (Err EInvalidDataType, mk_coll (Some []) (arr c) (items c) (firm c))
    end
  end.
(** an operation after init… *)
Definition with_init {A} (c : coll) (k : coll -> out A) : out A :=
  match init c with
  | (Ok _, c) => k c
  | (Err e, c) => (Err e, c)
  | (UB, c) => (UB, c)
  | (Fuel, c) => (Fuel, c)
  end.
(** Dereferencing an item, and its object *)
Definition used (c : coll) (x : option (option spot)) : res spot :=
  match x with
  | Some (Some (SElem i)) => if (i <? firm c)%nat then Ok (SElem i) else UB
  | Some (Some p) => Ok p
  | _ => UB
  end.
(** A80-84 GetCount, F142-146 GetFieldCount, K86-90 GetCount *)
Definition count (c : coll) : out Z := with_init c (fun c => (Ok (Z.of_nat (length (items c))), c)).
(** K92-96 HasKidsArray *)
Definition has_array (c : coll) : out bool := with_init c (fun c => (Ok (match arr c with Some _ => true | None => false end), c)).
(** A130-137 getAnnotAt, F91-98 getField, K137-144 getFieldAt *)
Definition get_at (i : nat) (c : coll) : out spot :=
  with_init c (fun c =>
    if (length (items c) <=? i)%nat then (Err EValueOutOfRange, c)
    else (used c (nth_error (items c) i), c)).
(** A139-143 getAnnot, F100-104 getField, K146-150 getField; map::at raises out_of_range, written EInternalLogic *)
Definition get (r : ref) (c : coll) : out spot :=
  with_init c (fun c =>
    match imap c with
    | None => (UB, c)
    | Some m =>
      match map_find r m with
      | None => (Err EInternalLogic, c)
      | Some i => (used c (nth_error (items c) (Z.to_nat i)), c)
      end
    end).
(** The array, the items and the map without the entries at an index; PdfArray.cpp 28-36 *)
Definition cut (i : nat) (m : list (ref * Z)) (c : coll) : out unit :=
  match arr c with
  | None => (UB, c)
  | Some l =>
    if (length l <=? i)%nat then (Err EValueOutOfRange, mk_coll (Some m) (arr c) (items c) (firm c))
    else (Ok tt, mk_coll (Some (fix_indices (Z.of_nat i) m)) (Some (erase_at i l)) (erase_at i (items c)) (min (firm c) i))
  end.
(** A43-61 RemoveAnnotAt, F106-123 RemoveFieldAt, K50-68 RemoveFieldAt; erase of end() is undefined *)
Definition remove_at (i : nat) (c : coll) : out unit :=
  with_init c (fun c =>
    if (length (items c) <=? i)%nat then (Err EValueOutOfRange, c)
    else match imap c, nth_error (items c) i with
         | None, _ | _, None => (UB, c)
         | Some m, Some None => cut i m c
         | Some m, Some (Some p) =>
           match used c (Some (Some p)) with
           | Ok p => match map_find (spot_ref p) m with Some _ => cut i (map_erase (spot_ref p) m) c | None => (UB, c) end
           | _ => (UB, c)
           end
         end).
(** A63-78 RemoveAnnot, F125-140 RemoveField, K70-84 RemoveField; the item is erased before the element of the array *)
Definition remove (r : ref) (c : coll) : out unit :=
  with_init c (fun c =>
    match imap c with
    | None => (UB, c)
    | Some m =>
      match map_find r m with
      | None => (Ok tt, c)
      | Some i =>
        if (length (items c) <=? Z.to_nat i)%nat then (UB, c)
        else match arr c with
             | None => (UB, c)
             | Some l =>
               if (length l <=? Z.to_nat i)%nat then (Err EValueOutOfRange, mk_coll (imap c) (arr c) (erase_at (Z.to_nat i) (items c)) (firm c))
               else cut (Z.to_nat i) (map_erase r m) c
             end
      end
    end).
(** A109-119 addAnnotation, F173-183 AddField, K115-126 AddChild for an indirect object of the document. The array may
    move to other memory. *)
Definition add (r : ref) (c : coll) : out unit :=
  with_init c (fun c =>
    match imap c with
    | None => (UB, c)
    | Some m =>
      let l := match arr c with Some l => l | None => [] end in
      (Ok tt, mk_coll (Some (map_put r (Z.of_nat (length l)) m)) (Some (l ++ [ORef (fst r) (snd r)])) (items c ++ [Some (SObj r)]) 0)
    end).
(** A86-104, F148-166, K98-113 begin, end: no init… *)
Definition iterated (c : coll) : list (option spot) := items c.
(** F185-189 GetFieldPtr: no initFields; operator[] of the map adds an entry; a null item is given as it is *)
Definition get_ptr (r : ref) (c : coll) : out (option spot) :=
  match imap c with
  | None => (UB, c)
  | Some m =>
    let (i, m') := match map_find r m with Some i => (i, m) | None => (0, map_put r 0 m) end in
    let c := mk_coll (Some m') (arr c) (items c) (firm c) in
    (match nth_error (items c) (Z.to_nat i) with Some x => Ok x | None => UB end, c)
  end.
End Coll.

(** ** What makes an item *)

(** private/PdfDeclarationsPrivate.cpp 233-295 NameToAnnotationType: the names it knows; it raises InternalLogic on others *)
Definition annot_names : list (list Z) :=
  [bs "Text"; bs "Link"; bs "FreeText"; bs "Line"; bs "Square"; bs "Circle"; bs "Polygon"; bs "PolyLine"; bs "Highlight";
   bs "Underline"; bs "Squiggly"; bs "StrikeOut"; bs "Stamp"; bs "Caret"; bs "Ink"; bs "Popup"; bs "FileAttachment";
   bs "Sound"; bs "Movie"; bs "Widget"; bs "Screen"; bs "PrinterMark"; bs "TrapNet"; bs "Watermark"; bs "3D"; bs "RichMedia";
   bs "WebMedia"; bs "Redact"; bs "Projection"].
(** PdfAnnotation.cpp 385-393 TryCreateFromObject, 410-511 tryCreateFromObject without a wanted type, 577-586
    getAnnotationType: an unknown type raises *)
Definition make_annot (look : ref -> option obj) (o : obj) : res bool :=
  match o with
  | ODict d =>
    match dict_find look (bs "Subtype") d with
    | Some (OName n) => if existsb (beq n) annot_names then Ok true else Err EInternalLogic
    | _ => Err EInvalidEnumValue
    end
  | _ => Err EInvalidDataType
  end.
