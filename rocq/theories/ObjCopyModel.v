(** Copying and moving objects with their streams: src/pdfmm/base/PdfObject.cpp:104-120, 318-341, 366-396, 432-452, PdfObjectStream.cpp:26-30,
    201-265, 299-367, PdfVariant.cpp:102-113, 240-300. Objects are known by numbers, as by their addresses; they have been loaded, their streams
    are in memory, and [look] gives the indirect objects for all of them. Documents, parents and the dirty flag are left out. *)
From Coq Require Import String.
From Verif Require Import Base TokModel FilterModel OwnModel ListModel StreamModel.
Local Open Scope Z_scope.

(** PdfObjectStream: m_Parent, the buffer of the provider, m_Filters *)
Record strm := mk_strm { s_par : nat; s_buf : list Z; s_flt : list ftype }.
(** PdfObject: m_Variant, m_Stream *)
Record cell := mk_cell { c_val : obj; c_str : option strm }.
Definition store := nat -> option cell.
Definition upd (i : nat) (c : option cell) (st : store) : store := fun k => if Nat.eqb k i then c else st k.
(** GetDictionary of an object that may be gone *)
Definition dict_of (st : store) (i : nat) : res (list (list Z * obj)) :=
  match st i with None => UB | Some c => match c_val c with ODict d => Ok d | _ => Err EInvalidDataType end end.
Definition put_val (i : nat) (v : obj) (st : store) : store := match st i with Some c => upd i (Some (mk_cell v (c_str c))) st | None => st end.
Definition put_str (i : nat) (s : option strm) (st : store) : store := match st i with Some c => upd i (Some (mk_cell (c_val c) s)) st | None => st end.

(** GetStream and GetCopy, PdfObject.cpp:122-126, PdfObjectStream.cpp:71-99, 299-351: the dictionary that is looked into is that of m_Parent *)
Definition read (z : zlib) (look : Z * Z -> option obj) (n : nat) (raw : bool) (st : store) (i : nat) : res (option (list Z)) :=
  match st i with
  | None => UB
  | Some c =>
    match c_str c with
    | None => Ok None
    | Some s =>
      if raw || match s_flt s with [] => true | _ => false end then Ok (Some (s_buf s))
      else do d <- dict_of st (s_par s); do x <- read_stream z look n raw (mk_sobj d (s_buf s) (s_flt s)); Ok (Some x)
    end
  end.
(** getOrCreateStream, 318-341 *)
Definition ensure_stream (st : store) (i : nat) : res strm :=
  match st i with
  | None => UB
  | Some c =>
    match c_str c with
    | Some s => Ok s
    | None => match c_val c with ODict _ => Ok (mk_strm i [] []) | _ => Err EInvalidDataType end
    end
  end.
Definition on {A B} (r : res A) (bad : B) (k : A -> B * res unit) : B * res unit :=
  match r with Ok a => k a | Err e => (bad, Err e) | UB => (bad, UB) | Fuel => (bad, Fuel) end.
(** copyStreamFrom, 380-390, with CopyFrom, PdfObjectStream.cpp:240-265: the buffer is copied first, the filters last *)
Definition copy_stream_from (look : Z * Z -> option obj) (st : store) (i j : nat) : store * res unit :=
  match st j with
  | None => (st, UB)
  | Some cj =>
    match c_str cj with
    | None => (st, Ok tt)
    | Some sj =>
      on (ensure_stream st i) st (fun si =>
      let st1 := put_str i (Some (mk_strm (s_par si) (s_buf sj) (s_flt si))) st in
      on (dict_of st1 (s_par si)) st1 (fun ld =>
      on (dict_of st1 (s_par sj)) st1 (fun rd =>
      let st2 := put_val (s_par si) (ODict (take_key look (bs "DecodeParms") rd (take_key look (bs "Filter") rd ld))) st1 in
      (put_str i (Some (mk_strm (s_par si) (s_buf sj) (s_flt sj))) st2, Ok tt))))
    end
  end.
(** The copy constructor, 104-108; when it raises there is no object *)
Definition copy_new (look : Z * Z -> option obj) (st : store) (i j : nat) : store * res unit :=
  match st j with
  | None => (st, UB)
  | Some cj => match copy_stream_from look (upd i (Some (mk_cell (c_val cj) None)) st) i j with (s, Ok _) => (s, Ok tt) | (_, bad) => (st, bad) end
  end.
(** Assignment, 366-371, 432-440, with PdfVariant.cpp:240-245: the old value is deleted before the new one is copied *)
Definition on_heap (v : obj) : bool := match v with ODict _ | OArr _ | OName _ | OStr _ _ => true | _ => false end.
Definition assign (look : Z * Z -> option obj) (st : store) (i j : nat) : store * res unit :=
  match st j with
  | None => (st, UB)
  | Some cj =>
    if Nat.eqb i j && on_heap (c_val cj) then (st, UB)
    else match st i with None => (st, UB) | Some _ => copy_stream_from look (put_val i (c_val cj) st) i j end
  end.
(** The move constructor, 113-120, and assignment, 373-378, 444-452, with moveStreamFrom, 392-396: m_Parent of the stream stays. The variant
    that was moved from is null *)
Definition move_new (st : store) (i j : nat) : store * res unit :=
  match st j with None => (st, UB) | Some cj => (upd i (Some cj) (upd j (Some (mk_cell ONull None)) st), Ok tt) end.
Definition move_assign (st : store) (i j : nat) : store * res unit :=
  match st j with
  | None => (st, UB)
  | Some cj =>
    if Nat.eqb i j then (upd i (Some (mk_cell ONull (c_str cj))) st, Ok tt)
    else match st i with None => (st, UB) | Some _ => move_new st i j end
  end.
(** GetOrCreateStream().SetData, 283-287, PdfObjectStream.cpp:267-297, 353-367 *)
Definition set_stream (z : zlib) (ts : list ftype) (data : list Z) (st : store) (i : nat) : store * res unit :=
  on (ensure_stream st i) st (fun s =>
  on (dict_of st (s_par s)) st (fun d =>
  let '(r, o) := set_data z ts [data] (mk_sobj d (s_buf s) (s_flt s)) in
  (put_str i (Some (mk_strm (s_par s) (sdata o) (sfilters o))) (put_val (s_par s) (ODict (sdict o)) st), r))).

(** A program on objects; what raises is caught and the program goes on *)
Inductive oop := ONew (i : nat) (v : obj) | OSet (i : nat) (ts : list ftype) (data : list Z) | OCopy (i j : nat) | OAssign (i j : nat) | OGone (i : nat).
Definition target (o : oop) : nat := match o with ONew i _ | OSet i _ _ | OCopy i _ | OAssign i _ | OGone i => i end.
Definition ostep (z : zlib) (look : Z * Z -> option obj) (st : store) (o : oop) : store * res unit :=
  match o with
  | ONew i v => (upd i (Some (mk_cell v None)) st, Ok tt)
  | OSet i ts data => set_stream z ts data st i
  | OCopy i j => copy_new look st i j
  | OAssign i j => assign look st i j
  | OGone i => (upd i None st, Ok tt)
  end.
Definition orun (z : zlib) (look : Z * Z -> option obj) (st : store) (l : list oop) : store := fold_left (fun st o => fst (ostep z look st o)) l st.
