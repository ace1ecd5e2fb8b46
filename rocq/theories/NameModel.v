(** Name trees: src/pdfmm/base/PdfNameTree.cpp.
    The objects of the document are a map from references to values, as in [PageModel]; a PdfObject pointer is the reference
    of the object; new objects get the next number (how numbers are chosen: [ListModel]). All strings are taken as
    evaluated (PdfString::GetString), so their bytes are UTF-8; [PdfString::operator==] then compares the bytes. The root
    of the tree is an indirect object. What an operation has changed before it raises is not kept. *)
From Coq Require Import String.
From Verif Require Import Base TokModel OwnModel ListModel PageModel.
Local Open Scope Z_scope.

Record doc := mk_doc { dheap : heap; dnext : Z }.
(** PdfIndirectObjectList::CreateDictionaryObject, without keys; the keys are added to the returned object *)
Definition new_object (s : doc) (d : list (list Z * obj)) : ref * doc :=
  ((dnext s, 0), mk_doc (set (dnext s, 0) (Some (ODict d)) (dheap s)) (dnext s + 1)).
(** PdfObject::GetReference, PdfObject::GetString of elements *)
Definition ref_of (o : obj) : res ref := match o with ORef n g => Ok (n, g) | _ => Err EInvalidDataType end.
Definition str_of (o : obj) : res (list Z) := match o with OStr _ s => Ok s | _ => Err EInvalidDataType end.
Definition ref_obj (r : ref) : obj := ORef (fst r) (snd r).
(** MustFindKey(k).GetArray() *)
Definition must_array (h : heap) (k : list Z) (d : list (list Z * obj)) : res (list obj) :=
  match dict_find h k d with None => Err ENoObject | Some (OArr l) => Ok l | Some _ => Err EInvalidDataType end.
(** The array found this way is changed where it is *)
Definition store_array (h : heap) (r : ref) (k : list Z) (l : list obj) : res heap :=
  do d <- dict_at h r;
  match get_key k d with
  | Some (ORef n g) => Ok (set (n, g) (Some (OArr l)) h)
  | _ => Ok (set r (Some (ODict (add_key k (OArr l) d))) h)
  end.

(** 415-435 CheckLimits *)
Inductive place := PBefore | PInside | PAfter.
Definition check_limits (h : heap) (r : ref) (key : list Z) : res place :=
  do d <- dict_at h r;
  if has_key (bs "Limits") d then
    do l <- must_array h (bs "Limits") d;
    match l with
    | [] => Err EValueOutOfRange
    | a :: l' =>
      do a <- str_of a;
      if bytes_lt key a then Ok PBefore
      else
        match l' with
        | [] => Err EValueOutOfRange
        | b :: _ => do b <- str_of b; if bytes_lt b key then Ok PAfter else Ok PInside
        end
    end
  else Ok PInside.

(** 174-198: the first or last limit of a kid *)
Definition limit_of (h : heap) (o : obj) (pick : list obj -> option obj) : res (list obj) :=
  do r <- ref_of o;
  match h r with
  | None => Ok []
  | Some (ODict d) =>
    match dict_find h (bs "Limits") d with
    | Some (OArr l) => match pick l with Some x => Ok [x] | None => UB end
    | _ => Ok []
    end
  | Some _ => Err EInvalidDataType
  end.
Definition back (l : list obj) : option obj := match l with [] => None | x :: _ => Some (last l x) end.
(** 170-228 SetLimits. front, back and end() - 2 of an array that is too short are undefined. *)
Definition set_limits (h : heap) (r : ref) (has_kids has_parent : bool) : res heap :=
  do d <- dict_at h r;
  do limits <-
    (if has_kids then
       match dict_find h (bs "Kids") d with
       | Some (OArr []) => UB
       | Some (OArr (k :: kids)) =>
         do a <- limit_of h k (fun l => hd_error l);
         do b <- limit_of h (last (k :: kids) k) back;
         Ok (a ++ b)
       | _ => Ok []
       end
     else
       match dict_find h (bs "Names") d with
       | Some (OArr names) =>
         match names with x :: _ :: _ => Ok [x; nth (length names - 2) names ONull] | _ => UB end
       | _ => Ok []
       end);
  if has_parent then set_key h r (bs "Limits") (OArr limits) else Ok h.
Definition set_limits_of (s : doc) (r : ref) (has_kids has_parent : bool) : res doc :=
  do h <- set_limits (dheap s) r has_kids has_parent; Ok (mk_doc h (dnext s)).
(** A temporary node (25-29) for a child, which has a parent *)
Definition child_limits (s : doc) (r : ref) : res doc :=
  do d <- dict_at (dheap s) r; set_limits_of s r (has_key (bs "Kids") d) true.

(** 268-284: the new child is put behind the old one. [None]: not found *)
Fixpoint put_behind (c1 c2 : ref) (kids : list obj) : res (option (list obj)) :=
  match kids with
  | [] => Ok None
  | o :: t =>
    do r <- ref_of o;
    if ref_eqb r c1 then Ok (Some (o :: ref_obj c2 :: t))
    else do t' <- put_behind c1 c2 t; Ok (match t' with Some t' => Some (o :: t') | None => None end)
  end.
(** 16 *)
Definition max_kids : nat := 65.
(** 230-306 Rebalance. [parent]: the parent node and whether it has a parent itself. The result is not used. *)
Definition rebalance (s : doc) (r : ref) (has_kids : bool) (parent : option (ref * bool)) : res doc :=
  let key := bs (if has_kids then "Kids" else "Names") in
  do d <- dict_at (dheap s) r;
  do arr <- must_array (dheap s) key d;
  let len := if has_kids then max_kids else (max_kids * 2)%nat in
  if (len <? length arr)%nat then
    let first := firstn (Nat.div2 len + 1) arr in
    let second := skipn (Nat.div2 len + 1) arr in
    match parent with
    | None =>
      let (c1, s) := new_object s [] in
      do d <- dict_at (dheap s) r;
      let s := mk_doc (set r (Some (ODict (erase_key (bs "Names") d))) (dheap s)) (dnext s) in
      let (c2, s) := new_object s [] in
      do h <- set_key (dheap s) c1 key (OArr first);
      do h <- set_key h c2 key (OArr second);
      do h <- set_key h r (bs "Kids") (OArr [ref_obj c1; ref_obj c2]);
      do s <- child_limits (mk_doc h (dnext s)) c1;
      do s <- child_limits s c2;
      set_limits_of s r true false
    | Some (p, above) =>
      do pd <- dict_at (dheap s) p;
      do kids <- must_array (dheap s) (bs "Kids") pd;
      let (c2, s) := new_object s [] in
      do h <- set_key (dheap s) r key (OArr first);
      do h <- set_key h c2 key (OArr second);
      do kids' <- put_behind r c2 kids;
      let kids' := match kids' with Some l => l | None => kids ++ [ref_obj r; ref_obj c2] end in
      do h <- set_key h p (bs "Kids") (OArr kids');
      do s <- child_limits (mk_doc h (dnext s)) r;
      do s <- child_limits s c2;
      if has_kids then set_limits_of s r true true else set_limits_of s p true above
    end
  else Ok s.

(** 51-78: the kid where the key belongs and whether it is inside of its limits *)
Fixpoint choose (h : heap) (key : list Z) (kids : list obj) (prev : option ref) : res (ref * bool) :=
  match kids with
  | [] => match prev with Some r => Ok (r, false) | None => UB end
  | o :: t =>
    do r <- ref_of o;
    match h r with
    | None => Err EInvalidHandle
    | Some _ =>
      do p <- check_limits h r key;
      match p with PBefore => Ok (r, false) | PInside => Ok (r, true) | PAfter => choose h key t (Some r) end
    end
  end.
(** 104-131: the pairs of a leaf; stepping over the end is undefined *)
Fixpoint put_names (key : bool * list Z) (v : obj) (names : list obj) : res (list obj) :=
  match names with
  | [] => Ok [OStr (fst key) (snd key); v]
  | o :: t =>
    do s <- str_of o;
    if beq s (snd key) then match t with [] => UB | _ :: t' => Ok (o :: v :: t') end
    else if bytes_lt (snd key) s then Ok (OStr (fst key) (snd key) :: v :: o :: t)
    else match t with [] => UB | w :: t' => do t'' <- put_names key v t'; Ok (o :: w :: t'') end
  end.
(** 47-168 AddValue of a node; it always returns true. Fuel: the recursion has no limit of its own. *)
Fixpoint add_value (fuel : nat) (s : doc) (r : ref) (parent : option (ref * bool)) (key : bool * list Z) (v : obj) : res doc :=
  match fuel with
  | O => Fuel
  | S fuel' =>
    let has_parent := match parent with Some _ => true | None => false end in
    do d <- dict_at (dheap s) r;
    if has_key (bs "Kids") d then
      do kids <- must_array (dheap s) (bs "Kids") d;
      do c <- choose (dheap s) (snd key) kids None;
      do s <- add_value fuel' s (fst c) (Some (r, has_parent)) key v;
      do s <- (if snd c then Ok s else set_limits_of s r true has_parent);
      rebalance s r true parent
    else if has_key (bs "Names") d then
      do names <- must_array (dheap s) (bs "Names") d;
      do names' <- put_names key v names;
      do h <- store_array (dheap s) r (bs "Names") names';
      do h <- (if has_parent then set_key h r (bs "Limits") (OArr [hd ONull names'; nth (length names' - 2) names' ONull]) else Ok h);
      rebalance (mk_doc h (dnext s)) r false parent
    else
      let k := OStr (fst key) (snd key) in
      let (c, s) := new_object s (add_key (bs "Limits") (OArr [k; k]) (add_key (bs "Names") (OArr [k; v]) [])) in
      do h <- set_key (dheap s) r (bs "Kids") (OArr [ref_obj c]);
      do h <- (if has_parent then set_key h r (bs "Limits") (OArr [k; k]) else Ok h);
      Ok (mk_doc h (dnext s))
  end.

(** 373-391: the pairs of a leaf *)
Fixpoint find_name (h : heap) (key : list Z) (names : list obj) : res (option obj) :=
  match names with
  | [] => Ok None
  | o :: t =>
    do s <- str_of o;
    if beq s key then
      match t with [] => UB | ORef n g :: _ => Ok (h (n, g)) | v :: _ => Ok (Some v) end
    else match t with [] => UB | _ :: t' => find_name h key t' end
  end.
(** 349-368: the loop over the kids *)
Fixpoint find_in_kids (rec : ref -> res (option obj)) (h : heap) (kids : list obj) : res (option obj) :=
  match kids with
  | [] => Ok None
  | o :: t =>
    do r <- ref_of o;
    match h r with
    | None => find_in_kids rec h t
    | Some _ => do x <- rec r; match x with Some v => Ok (Some v) | None => find_in_kids rec h t end
    end
  end.
(** 342-395 GetKeyValue; the recursion has no limit *)
Fixpoint key_value (fuel : nat) (h : heap) (key : list Z) (r : ref) : res (option obj) :=
  match fuel with
  | O => Fuel
  | S fuel' =>
    do p <- check_limits h r key;
    match p with
    | PInside =>
      do d <- dict_at h r;
      if has_key (bs "Kids") d then do kids <- must_array h (bs "Kids") d; find_in_kids (key_value fuel' h key) h kids
      else do names <- must_array h (bs "Names") d; find_name h key names
    | _ => Ok None
    end
  end.
(** 327-340 GetValue *)
Definition get_value (fuel : nat) (h : heap) (root : ref) (key : list Z) : res (option obj) :=
  do x <- key_value fuel h key root;
  match x with Some (ORef n g) => Ok (h (n, g)) | x => Ok x end.
(** 410-413 HasValue *)
Definition has_value (fuel : nat) (h : heap) (root : ref) (key : list Z) : res bool :=
  do x <- get_value fuel h root key; Ok (match x with Some _ => true | None => false end).
(** 320-325 AddValue of the tree *)
Definition add_to_tree (fuel : nat) (s : doc) (root : ref) (key : bool * list Z) (v : obj) : res doc := add_value fuel s root None key v.
(** A sequence of additions *)
Fixpoint add_all (fuel : nat) (s : doc) (root : ref) (l : list (bool * list Z * obj)) : res doc :=
  match l with
  | [] => Ok s
  | (k, v) :: t => do s <- add_to_tree fuel s root k v; add_all fuel s root t
  end.

(** 437-491 ToDictionary, AddToDictionary; [guard] is what the recursion guard leaves. The keys are taken as names byte by
    byte, which PdfName does for ASCII. *)
Fixpoint pairs_to_dict (names : list obj) (dict : list (list Z * obj)) : res (list (list Z * obj)) :=
  match names with
  | [] => Ok dict
  | o :: t => do s <- str_of o; match t with [] => Ok dict | v :: t' => pairs_to_dict t' (add_key s v dict) end
  end.
Fixpoint kids_to_dict (rec : ref -> list (list Z * obj) -> res (list (list Z * obj))) (h : heap) (kids : list obj) (dict : list (list Z * obj)) :
    res (list (list Z * obj)) :=
  match kids with
  | [] => Ok dict
  | o :: t =>
    do r <- ref_of o;
    match h r with
    | None => kids_to_dict rec h t dict
    | Some _ => do dict <- rec r dict; kids_to_dict rec h t dict
    end
  end.
Fixpoint add_to_dict (guard : nat) (h : heap) (r : ref) (dict : list (list Z * obj)) : res (list (list Z * obj)) :=
  match guard with
  | O => Err EInvalidXRef
  | S guard' =>
    do d <- dict_at h r;
    if has_key (bs "Kids") d then do kids <- must_array h (bs "Kids") d; kids_to_dict (add_to_dict guard' h) h kids dict
    else if has_key (bs "Names") d then do names <- must_array h (bs "Names") d; pairs_to_dict names dict
    else Ok dict
  end.
Definition to_dictionary (guard : nat) (h : heap) (root : ref) : res (list (list Z * obj)) := add_to_dict guard h root [].
