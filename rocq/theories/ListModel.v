(** The list of indirect objects: src/pdfmm/base/PdfIndirectObjectList.cpp, and the functions of PdfDocument.cpp
    that merge two lists. Objects are values (no pointers); all objects of a list have the list's document
    unless said otherwise. Observers and stream factories are left out. *)
From Coq Require Import String.
From Verif Require Import Base TokModel.
Local Open Scope Z_scope.

(** base/PdfReference.h: uint32_t object number, uint16_t generation; PdfReference.cpp:46-59 *)
Definition ref : Type := Z * Z.
Definition ref_lt (a b : ref) : bool := if fst a =? fst b then snd a <? snd b else fst a <? fst b.
Definition ref_eqb (a b : ref) : bool := (fst a =? fst b) && (snd a =? snd b).

(** The value of an indirect object and its stream data *)
Definition iobj : Type := obj * option (list Z).

(** m_Objects, ordered by reference (PdfObject.cpp:810-816); m_ObjectCount, m_FreeObjects (a sorted deque),
    m_unavailableObjects, m_objectStreams, m_CanReuseObjectNumbers *)
Record olist := mk_ol {
  live : list (ref * iobj); count : Z; frees : list ref; unavail : list Z; ostrms : list Z; reuse : bool }.
(** PdfIndirectObjectList.cpp:73-80 *)
Definition empty_list : olist := mk_ol [] 1 [] [] [] true.

(** std::lower_bound with CompareReference: the part from the first element not below [r] *)
Fixpoint lower {A} (r : ref) (l : list (ref * A)) : list (ref * A) :=
  match l with
  | [] => []
  | (r', _) :: t => if ref_lt r' r then lower r t else l
  end.
(** 123-130 GetObject *)
Definition get_object (r : ref) (s : olist) : option iobj :=
  match lower r (live s) with
  | (r', o) :: _ => if ref_eqb r' r then Some o else None
  | [] => None
  end.

(** std::set insertion of an element with this reference; an equal one keeps its place, its value is replaced *)
Fixpoint put {A} (r : ref) (o : A) (l : list (ref * A)) : list (ref * A) :=
  match l with
  | [] => [(r, o)]
  | (r', o') :: t => if ref_lt r' r then (r', o') :: put r o t else if ref_lt r r' then (r, o) :: l else (r, o) :: t
  end.
(** std::set::erase of the element with reference [r] *)
Fixpoint erase {A} (r : ref) (l : list (ref * A)) : list (ref * A) :=
  match l with
  | [] => []
  | (r', o') :: t => if ref_eqb r' r then t else (r', o') :: erase r t
  end.

(** 491-500 TryIncrementObjectCount; the count is an unsigned int *)
Definition incr_count (r : ref) (c : Z) : Z := if c <=? fst r then u32 (fst r + 1) else c.

(** 303-330 PushObject, pushObject: an object with the same reference is deleted *)
Definition push (r : ref) (o : iobj) (s : olist) : olist :=
  mk_ol (put r o (live s)) (incr_count r (count s)) (frees s) (unavail s) (ostrms s) (reuse s).

(** 271-289 AddFreeObject *)
Fixpoint free_insert (r : ref) (l : list ref) : list ref :=
  match l with
  | [] => [r]
  | r' :: t => if ref_lt r' r then r' :: free_insert r t else if ref_lt r r' then r :: l else l
  end.
Definition add_free (r : ref) (s : olist) : olist :=
  if existsb (ref_eqb r) (frees s) then s
  else mk_ol (live s) (incr_count r (count s)) (free_insert r (frees s)) (unavail s) (ostrms s) (reuse s).
(** 255-269 tryAddFreeObject: the generation, not the number, is recorded as unavailable *)
Definition try_add_free (n g : Z) (s : olist) : olist :=
  if 65535 <=? g then mk_ol (live s) (count s) (frees s) (g :: unavail s) (ostrms s) (reuse s)
  else add_free (n, g) s.
(** 238-248 SafeAddFreeObject *)
Definition safe_add_free (r : ref) (s : olist) : olist := try_add_free (fst r) (snd r + 1) s.

(** 185-211 getNextFreeObject: the number is a uint16_t and wraps; Fuel is the endless loop when all 65536
    numbers are unavailable. The comparison with MaxReserveSize (8388607) never holds for a uint16_t. *)
Fixpoint next_num (fuel : nat) (n : Z) (un : list Z) : res Z :=
  match fuel with
  | O => Fuel
  | S f => if existsb (Z.eqb n) un then next_num f (u16 (n + 1)) un else Ok n
  end.
Definition next_free (s : olist) : res (ref * olist) :=
  match frees s with
  | r :: t =>
    if reuse s then Ok (r, mk_ol (live s) (count s) t (unavail s) (ostrms s) (reuse s))
    else do n <- next_num (Z.to_nat 65536) (u16 (count s)) (unavail s); Ok ((n, 0), s)
  | [] => do n <- next_num (Z.to_nat 65536) (u16 (count s)) (unavail s); Ok ((n, 0), s)
  end.
(** 213-246, 296-301 CreateObject, addNewObject *)
Definition create (o : iobj) (s : olist) : res (ref * olist) :=
  do x <- next_free s; Ok (fst x, push (fst x) o (snd x)).

(** 132-141, 171-183 RemoveObject, removeObject *)
Definition remove (r : ref) (mark : bool) (s : olist) : res (option iobj * olist) :=
  match get_object r s with
  | None => Ok (None, s)
  | Some o =>
    if existsb (Z.eqb (fst r)) (ostrms s) then Err EInternalLogic
    else
      let s1 := if mark then safe_add_free r s else s in
      Ok (Some o, mk_ol (erase r (live s1)) (count s1) (frees s1) (unavail s1) (ostrms s1) (reuse s1))
  end.

(** 153-169 ReplaceObject: the first object not below [r] is taken out, whatever its reference. [same_doc] tells
    whether the new object has the list's document: otherwise comparing it with another element raises
    InternalLogic (PdfObject.cpp:812), after the node was taken out. The result carries the state also after an error. *)
Definition replace (r : ref) (o : iobj) (same_doc : bool) (s : olist) : res iobj * olist :=
  match lower r (live s) with
  | [] => (Err EInvalidHandle, s)
  | (r', old) :: _ =>
    let rest := erase r' (live s) in
    if negb same_doc && negb (match rest with [] => true | _ => false end)
    then (Err EInternalLogic, mk_ol rest (count s) (frees s) (unavail s) (ostrms s) (reuse s))
    else
      (Ok old, mk_ol (put r o rest) (incr_count r (count s)) (frees s) (unavail s) (ostrms s) (reuse s))
  end.

(** 103-111 Clear *)
Definition clear (s : olist) : olist := mk_ol [] 1 (frees s) (unavail s) (ostrms s) (reuse s).
(** 467-473 SetCanReuseObjectNumbers *)
Definition set_reuse (b : bool) (s : olist) : olist :=
  mk_ol (live s) (count s) (if b then frees s else []) (unavail s) (ostrms s) b.
(** 291-294 AddObjectStream *)
Definition add_ostrm (n : Z) (s : olist) : olist :=
  mk_ol (live s) (count s) (frees s) (unavail s) (n :: ostrms s) (reuse s).

(** 363-408 visitObject: [seen] is the set of visited references. A direct value is visited structurally, [follow]
    is the Reference case (383-391) with the check at the start of the visit of the referenced object (365-374);
    its fuel bounds the depth of references (the code recurses without a limit). An object with reference (0, 0)
    does not count as indirect in the code and would be visited every time; here it is like any other. *)
Fixpoint visit_value (follow : ref -> list ref -> option (list ref)) (o : obj) (seen : list ref) : option (list ref) :=
  match o with
  | ORef n g => follow (n, g) seen
  | OArr l =>
    (fix go (l : list obj) (seen : list ref) : option (list ref) :=
       match l with
       | [] => Some seen
       | x :: t => match visit_value follow x seen with Some seen' => go t seen' | None => None end
       end) l seen
  | ODict d =>
    (fix go (d : list (list Z * obj)) (seen : list ref) : option (list ref) :=
       match d with
       | [] => Some seen
       | (_, x) :: t => match visit_value follow x seen with Some seen' => go t seen' | None => None end
       end) d seen
  | _ => Some seen
  end.
Fixpoint follow (fuel : nat) (s : olist) (r : ref) (seen : list ref) : option (list ref) :=
  match get_object r s with
  | None => Some seen
  | Some (c, _) =>
    if existsb (ref_eqb r) seen then Some seen
    else match fuel with O => None | S f => visit_value (follow f s) c (r :: seen) end
  end.

(** 332-361 CollectGarbage with the trailer dictionary [tr] (a direct object) *)
Definition collect (tr : obj) (s : olist) : option olist :=
  match visit_value (follow (length (live s)) s) tr [] with
  | None => None
  | Some seen =>
    let keep (x : ref * iobj) := existsb (ref_eqb (fst x)) seen || existsb (Z.eqb (fst (fst x))) (ostrms s) in
    let s1 := fold_left (fun s x => if keep x then s else safe_add_free (fst x) s) (live s) s in
    Some (mk_ol (filter keep (live s)) (count s1) (frees s1) (unavail s1) (ostrms s1) (reuse s1))
  end.

(** ** Merging, PdfDocument.cpp *)
(** 444-482 fixObjectReferences; uint32_t arithmetic *)
Fixpoint fix_refs (diff : Z) (o : obj) : obj :=
  match o with
  | ORef n g => ORef (u32 (n + diff)) g
  | OArr l => OArr (map (fix_refs diff) l)
  | ODict d => ODict (map (fun kv => (fst kv, fix_refs diff (snd kv))) d)
  | _ => o
  end.
Definition difference (s : olist) : Z := u32 (Z.of_nat (length (live s) + length (frees s))).
Definition append_one (diff : Z) (s : olist) (x : ref * iobj) : olist :=
  let '((n, g), (o, st)) := x in push (u32 (n + diff), g) (fix_refs diff o, st) s.
(** 117-146 append, the object part; [src] is another document *)
Definition append (src s : olist) : olist :=
  let diff := difference s in
  let s1 := fold_left (fun s r => add_free (u32 (fst r + diff), snd r) s) (frees src) s in
  fold_left (append_one diff) (live src) s1.

(** 201-233 InsertDocumentPageAt, the loop over the objects: it runs over the list it inserts into. [cur] is the
    reference at the iterator; one unit of fuel per iteration. Without free objects (with some, the loop before it
    invalidates its own iterators). *)
Fixpoint insert_loop (fuel : nat) (diff : Z) (cur : ref) (s : olist) : res olist :=
  match fuel with
  | O => Fuel
  | S f =>
    match lower cur (live s) with
    | [] => Ok s
    | (r, o) :: _ =>
      let s' := append_one diff s (r, o) in
      (* ++it: the next element of the set as it is now *)
      insert_loop f diff (fst r, snd r + 1) s'
    end
  end.
Definition insert_objects (fuel : nat) (s : olist) : res olist := insert_loop fuel (difference s) (0, 0) s.
