(** The values of signature fields: src/pdfmm/base/PdfSignature.cpp. The objects of the document are a map from references to values, and
    new objects get the next number. Texts are taken as their bytes. What was changed before an operation raises is kept: an operation
    gives the state it leaves and whether it raised. /SigFlags, appearances and the raw data written for /Contents and /ByteRange are
    not modelled: the latter are given as values. *)
From Coq Require Import String.
From Verif Require Import Base TokModel OwnModel ListModel PageModel DateModel.
Local Open Scope Z_scope.

(** m_ValueObj, PdfSignature.h: the value inside of the dictionary of the field, or an indirect object *)
Inductive place := Own | At (r : ref).
(** The document, the number of its next object, and m_ValueObj *)
Record st := mk_st { heap_of : heap; next_of : Z; value_of : option place }.

(** PdfSignature.cpp:37-42, the constructor from an object: FindKey *)
Definition find_value (h : heap) (f : ref) : res (option place) :=
  do d <- dict_at h f;
  Ok (match get_key (bs "V") d with
      | None => None
      | Some (ORef n g) => match h (n, g) with Some _ => Some (At (n, g)) | None => None end
      | Some _ => Some Own
      end).
Definition reopen (s : st) (f : ref) : res st := do v <- find_value (heap_of s) f; Ok (mk_st (heap_of s) (next_of s) v).

(** m_ValueObj->GetDictionary() *)
Definition value_dict (h : heap) (f : ref) (p : place) : res (list (list Z * obj)) :=
  match p with
  | At r => dict_at h r
  | Own => do d <- dict_at h f;
           match get_key (bs "V") d with Some (ODict v) => Ok v | Some _ => Err EInvalidDataType | None => UB end
  end.
(** The dictionary of m_ValueObj after a change *)
Definition put_dict (h : heap) (f : ref) (p : place) (v : list (list Z * obj)) : heap :=
  match p with
  | At r => set r (Some (ODict v)) h
  | Own => match h f with Some (ODict d) => set f (Some (ODict (add_key (bs "V") (ODict v) d))) h | _ => h end
  end.
(** One change of the dictionary of m_ValueObj; without one, InvalidHandle *)
Definition change (s : st) (f : ref) (g : list (list Z * obj) -> list (list Z * obj)) : st * res unit :=
  match value_of s with
  | None => (s, Err EInvalidHandle)
  | Some p =>
    match value_dict (heap_of s) f p with
    | Ok v => (mk_st (put_dict (heap_of s) f p (g v)) (next_of s) (value_of s), Ok tt)
    | Err e => (s, Err e) | UB => (s, UB) | Fuel => (s, Fuel)
    end
  end.

(** The texts: SetSignerName 57-66, SetSignatureReason 68-77, SetSignatureDate 79-94, SetSignatureLocation 117-126 *)
Inductive attr := AName | AReason | ALocation | ADate.
Definition attr_key (a : attr) : list Z :=
  match a with AName => bs "Name" | AReason => bs "Reason" | ALocation => bs "Location" | ADate => bs "M" end.
Definition set_text (s : st) (f : ref) (a : attr) (t : option (list Z)) : st * res unit :=
  change s f (fun v => match t with Some x => add_key (attr_key a) (OStr false x) v | None => snd (remove_key (attr_key a) v) end).
Definition set_date (s : st) (f : ref) (t : option date) : st * res unit := set_text s f ADate (option_map (date_text false) t).
(** GetSignerName, GetSignatureReason, GetSignatureLocation 183-220; FindKey and TryGetString *)
Definition get_text (s : st) (f : ref) (a : attr) : res (option (list Z)) :=
  match value_of s with
  | None => Ok None
  | Some p => do v <- value_dict (heap_of s) f p;
              Ok (match dict_find (heap_of s) (attr_key a) v with Some (OStr _ x) => Some x | _ => None end)
  end.
(** GetSignatureDate 222-236 *)
Definition get_date (s : st) (f : ref) : res (option date) :=
  do t <- get_text s f ADate; Ok (match t with Some x => try_parse x | None => None end).
(** SetSignatureCreator 128-147 *)
Definition set_creator (s : st) (f : ref) (t : option (list Z)) : st * res unit :=
  change s f (fun v =>
    match t with
    | Some x => add_key (bs "Prop_Build") (ODict (add_key (bs "App") (ODict (add_key (bs "Name") (OStr false x) [])) [])) v
    | None => snd (remove_key (bs "Prop_Build") v)
    end).
(** EnsureValueObject 243-253 with CreateDictionaryObject, PdfIndirectObjectList.cpp:212-226 *)
Definition create (s : st) (d : list (list Z * obj)) : st * ref :=
  let r := (next_of s, 0) in (mk_st (set r (Some (ODict d)) (heap_of s)) (next_of s + 1) (value_of s), r).
Definition ensure (s : st) (f : ref) : st * res unit :=
  match value_of s with
  | Some _ => (s, Ok tt)
  | None =>
    let (s1, r) := create s (add_key (bs "Type") (OName (bs "Sig")) []) in
    let s2 := mk_st (heap_of s1) (next_of s1) (Some (At r)) in
    match set_key (heap_of s2) f (bs "V") (ORef (fst r) (snd r)) with
    | Ok h => (mk_st h (next_of s2) (value_of s2), Ok tt)
    | Err e => (s2, Err e) | UB => (s2, UB) | Fuel => (s2, Fuel)
    end
  end.
(** PrepareForSigning 96-115 *)
Definition prepare (s : st) (f : ref) (filter sub type : list Z) (contents range : obj) : st * res unit :=
  match ensure s f with
  | (s1, Ok _) =>
    change s1 f (fun v =>
      add_key (bs "ByteRange") range (add_key (bs "Contents") contents (add_key (bs "Type") (OName type)
        (add_key (bs "SubFilter") (OName sub) (add_key (bs "Filter") (OName filter) v)))))
  | bad => bad
  end.
(** AddCertificationReference 149-175. The dictionaries made are copied into the containers they are added to. [c] is the catalog *)
Definition params (p : Z) : list (list Z * obj) :=
  add_key (bs "P") (ONum p) (add_key (bs "V") (OName (bs "1.2")) (add_key (bs "Type") (OName (bs "TransformParams")) [])).
Definition sig_ref (p : Z) : list (list Z * obj) :=
  add_key (bs "TransformParams") (ODict (params p))
    (add_key (bs "TransformMethod") (OName (bs "DocMDP")) (add_key (bs "Type") (OName (bs "SigRef")) [])).
Definition certify (s : st) (f c : ref) (p : Z) : st * res unit :=
  match change s f (fun v => snd (remove_key (bs "Reference") v)) with
  | (s1, Ok _) =>
    let (s2, _) := create s1 (sig_ref p) in
    let (s3, _) := create s2 (params p) in
    match dict_at (heap_of s3) f with
    | Ok d =>
      match get_key (bs "V") d with
      | None => (s3, UB)
      | Some (ORef n g) =>
        match set_key (heap_of s3) c (bs "Perms") (ODict (add_key (bs "DocMDP") (ORef n g) [])) with
        | Ok h => change (mk_st h (next_of s3) (value_of s3)) f (add_key (bs "Reference") (OArr [ODict (sig_ref p)]))
        | Err e => (s3, Err e) | UB => (s3, UB) | Fuel => (s3, Fuel)
        end
      | Some _ => (s3, Err EInvalidDataType)
      end
    | Err e => (s3, Err e) | UB => (s3, UB) | Fuel => (s3, Fuel)
    end
  | bad => bad
  end.

(** A run of a program on one signature field [f] of a document with the catalog [c]; what raises is caught and the program goes on *)
Inductive op :=
| SetText (a : attr) (t : option (list Z)) | SetCreator (t : option (list Z)) | Ensure
| Prepare (filter sub type : list Z) (contents range : obj) | Certify (p : Z).
Definition step (f c : ref) (s : st) (o : op) : st * res unit :=
  match o with
  | SetText a t => set_text s f a t
  | SetCreator t => set_creator s f t
  | Ensure => ensure s f
  | Prepare x y z k b => prepare s f x y z k b
  | Certify p => certify s f c p
  end.
Definition run (f c : ref) (s : st) (l : list op) : st := fold_left (fun s o => fst (step f c s o)) l s.
