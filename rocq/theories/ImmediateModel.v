(** Documents that are written while they are made: base/PdfStreamedDocument.cpp, base/PdfImmediateWriter.cpp,
    base/PdfStreamedObjectStream.cpp, base/PdfObjectStream.cpp:418-520, base/PdfObject.cpp:209-341. Without encryption. *)
From Coq Require Import String.
From Verif Require Import Base TokModel WriteModel FilterModel ListModel UpdateModel StreamModel.
Local Open Scope Z_scope.
Local Notation dict := (list (list Z * obj)) (only parsing).

(** The provider of a stream. [Memory]: PdfMemoryObjectStream with m_Filters of the stream. [Direct]:
    PdfStreamedObjectStream with m_Length, the object of m_LengthObj, and m_locked where it is set for good. m_Filters of a
    direct stream is not kept: it is only set when the object has been written, and is not looked at after that. *)
Inductive stm := Memory (data : list Z) (fs : list ftype) | Direct (len : Z) (at_ : ref) (locked : bool).
(** The document: the objects of the list in the order of their references; the streams (they stay here when the object
    is destroyed; only those of objects in the list exist); m_ObjectCount; what the device contains, its position being at
    the end between calls; m_Last, m_OpenStream and m_xRef of the writer; the output streams that are open, with their
    filters. *)
Record sdoc := mk_sdoc { objects : list (ref * obj); streams : ref -> option stm; count : Z; dev : list Z; last : option ref; opened : bool;
  table : list (ref * Z); outputs : list (ref * list ftype) }.
(** The flags: those that change texts, whether a line end is left out behind "obj", and for which objects PdfObject.cpp:236-244
    compresses (not with NoFlateCompress, and not the metadata). *)
Record wopts := mk_wopts { wfl : wflags; wtight : bool; wflate : ref -> bool }.

(** Looking up, changing and removing by reference *)
Fixpoint at_ref {A} (l : list (ref * A)) (r : ref) : option A :=
  match l with [] => None | (q, a) :: t => if ref_eqb q r then Some a else at_ref t r end.
Fixpoint change {A} (l : list (ref * A)) (r : ref) (a : A) : list (ref * A) :=
  match l with [] => [] | (q, b) :: t => if ref_eqb q r then (q, a) :: t else (q, b) :: change t r a end.
Definition without {A} (l : list (ref * A)) (r : ref) : list (ref * A) := filter (fun x => negb (ref_eqb (fst x) r)) l.
Definition put_stream (f : ref -> option stm) (r : ref) (s : stm) : ref -> option stm := fun q => if ref_eqb q r then Some s else f q.

Definition with_objects d l := mk_sdoc l (streams d) (count d) (dev d) (last d) (opened d) (table d) (outputs d).
Definition with_stream d r s := mk_sdoc (objects d) (put_stream (streams d) r s) (count d) (dev d) (last d) (opened d) (table d) (outputs d).
Definition with_dev d b := mk_sdoc (objects d) (streams d) (count d) b (last d) (opened d) (table d) (outputs d).
Definition with_outputs d l := mk_sdoc (objects d) (streams d) (count d) (dev d) (last d) (opened d) (table d) l.
Definition set_opened d := mk_sdoc (objects d) (streams d) (count d) (dev d) (last d) true (table d) (outputs d).
Definition set_last d l := mk_sdoc (objects d) (streams d) (count d) (dev d) l (opened d) (table d) (outputs d).
(** m_xRef->AddInUseObject with the position of the device *)
Definition add_entry d r := mk_sdoc (objects d) (streams d) (count d) (dev d) (last d) (opened d) (table d ++ [(r, Z.of_nat (length (dev d)))]) (outputs d).

(** PdfIndirectObjectList::CreateObject: the next number; no number is given back by this writer. Numbers beyond the limit are
    not considered. *)
Definition new_object (o : obj) (d : sdoc) : ref * sdoc :=
  ((count d, 0), mk_sdoc (objects d ++ [((count d, 0), o)]) (streams d) (count d + 1) (dev d) (last d) (opened d) (table d) (outputs d)).
(** PdfObject.cpp:324-341 forceCreateStream, PdfImmediateWriter.cpp:127-132 CreateStream, PdfStreamedObjectStream.cpp:66-70 Init.
    An object that is not in the list any more has been destroyed. *)
Definition create_stream (r : ref) (d : sdoc) : res unit * sdoc :=
  match at_ref (objects d) r with
  | None => (UB, d)
  | Some o =>
    match streams d r, o with
    | Some _, _ => (Ok tt, d)
    | None, ODict e =>
      if opened d then (Ok tt, with_stream d r (Memory [] []))
      else
        let '(l, d1) := new_object (ONum 0) d in
        (Ok tt, with_stream (with_objects d1 (change (objects d1) r (ODict (dict_add (bs "Length") (ORef (fst l) (snd l)) e)))) r (Direct 0 l false))
    | None, _ => (Err EInvalidDataType, d)
    end
  end.
(** AddKey on the dictionary of an object *)
Definition set_entry (r : ref) (k : list Z) (v : obj) (d : sdoc) : res unit * sdoc :=
  match at_ref (objects d) r with
  | None => (UB, d)
  | Some (ODict e) => (Ok tt, with_objects d (change (objects d) r (ODict (dict_add k v e))))
  | Some _ => (Err EInvalidDataType, d)
  end.
(** PdfImmediateWriter.cpp:134-144 FinishLastObject: the object is removed from the list and with that destroyed *)
Definition finish_last (d : sdoc) : sdoc :=
  match last d with
  | None => d
  | Some r => set_last (with_objects (with_dev d (dev d ++ [10] ++ bs "endstream" ++ [10] ++ bs "endobj" ++ [10])) (without (objects d) r)) None
  end.
(** 76-79: the position is moved back by seven bytes, which are written over *)
Definition overwrite (b : list Z) : list Z := firstn (length b - 7) b ++ bs "stream" ++ [10].
(** 66-81 WriteObject with PdfObject.cpp:209-281. If the object is to be compressed its data is to be read, which this
    provider cannot (PdfStreamedObjectStream.cpp:90-94); the stream stays locked (PdfObjectStream.cpp:401-406), and is found
    locked at the next attempt. The stream itself writes nothing (109-114). *)
Definition write_object (o : wopts) (r : ref) (d : sdoc) : res unit * sdoc :=
  let d := finish_last d in
  match at_ref (objects d) r, streams d r with
  | Some v, Some (Direct len l locked) =>
    let d := add_entry d r in
    let d1 := with_dev d (dev d ++ dec (fst r) ++ [32] ++ dec (snd r) ++ bs " obj" ++ (if wtight o then [] else [10])) in
    if wflate o r then (if locked then (Err EInternalLogic, d1) else (Err ENotImplemented, with_stream d1 r (Direct len l true)))
    else
      match write (wfl o) v with
      | Ok t => (Ok tt, set_last (with_dev d1 (overwrite (dev d1 ++ t ++ [10] ++ bs "endobj" ++ [10]))) (Some r))
      | Err e => (Err e, d1) | UB => (UB, d1) | Fuel => (Fuel, d1)
      end
  | _, _ => (UB, d)
  end.
Definition is_open (d : sdoc) (r : ref) : bool := existsb (fun x => ref_eqb (fst x) r) (outputs d).
(** PdfObjectStream.cpp:40-55 GetOutputStream with 476-508, PdfImmediateWriter.cpp:146-159 BeginAppendStream,
    PdfStreamedObjectStream.cpp:96-107, PdfMemoryObjectStream.cpp:58-63 *)
Definition open_output (o : wopts) (r : ref) (ts : list ftype) (d : sdoc) : res unit * sdoc :=
  match at_ref (objects d) r, streams d r with
  | Some _, Some s =>
    if is_open d r then (Err EInternalLogic, d)
    else
      match s with
      | Memory _ fs => (Ok tt, with_outputs (with_stream d r (Memory [] fs)) ((r, ts) :: outputs d))
      | Direct _ _ true => (Err EInternalLogic, d)
      | Direct _ _ false =>
        match write_object o r (set_opened d) with
        | (Ok _, d1) => (Ok tt, with_outputs d1 ((r, ts) :: outputs d1))
        | x => x
        end
      end
  | _, _ => (UB, d)
  end.
(** PdfStreamedObjectStream.cpp:42-46 writeBuffer and the buffer of PdfMemoryObjectStream: bytes as the filters pass them on.
    The stream must still exist. *)
Definition put_bytes (r : ref) (b : list Z) (d : sdoc) : res unit * sdoc :=
  if is_open d r then
    match at_ref (objects d) r, streams d r with
    | Some _, Some (Memory x fs) => (Ok tt, with_stream d r (Memory (x ++ b) fs))
    | Some _, Some (Direct len l k) => (Ok tt, with_stream (with_dev d (dev d ++ b)) r (Direct (len + Z.of_nat (length b)) l k))
    | _, _ => (UB, d)
    end
  else (Err EInvalidHandle, d).
(** PdfObjectStream.cpp:422-460: /Filter of the object, the filters of the stream; BeginAppendStream is called once more (458).
    PdfStreamedObjectStream.cpp:35-39 and 126-132: the length. *)
Definition close_output (r : ref) (d : sdoc) : res unit * sdoc :=
  match at_ref (outputs d) r with
  | None => (Err EInvalidHandle, d)
  | Some ts =>
    match at_ref (objects d) r, streams d r with
    | Some (ODict e), Some s =>
      let d1 := with_outputs (with_objects d (change (objects d) r (ODict (set_filter ts e)))) (without (outputs d) r) in
      match s with
      | Memory x _ => (Ok tt, with_stream d1 r (Memory x ts))
      | Direct len l _ =>
        match at_ref (objects d) l with
        | None => (UB, d)
        | Some _ => (Ok tt, set_opened (with_objects d1 (change (objects d1) l (ONum len))))
        end
      end
    | _, _ => (UB, d)
    end
  end.

(** Calls *)
Inductive op := New (o : obj) | Stream (r : ref) | Set_ (r : ref) (k : list Z) (v : obj) | Open (r : ref) (ts : list ftype) | Put (r : ref) (b : list Z) | Close (r : ref).
Definition step (o : wopts) (x : op) (d : sdoc) : res unit * sdoc :=
  match x with
  | New v => (Ok tt, snd (new_object v d))
  | Stream r => create_stream r d
  | Set_ r k v => set_entry r k v d
  | Open r ts => open_output o r ts d
  | Put r b => put_bytes r b d
  | Close r => close_output r d
  end.
(** One after the other, as long as none fails *)
Fixpoint run (o : wopts) (l : list op) (d : sdoc) : res unit * sdoc :=
  match l with
  | [] => (Ok tt, d)
  | x :: t => match step o x d with (Ok _, d1) => run o t d1 | y => y end
  end.
(** PdfImmediateWriter.cpp:19-47: the document after the header; the objects a document is made with are calls of [New] *)
Definition start (header : list Z) : sdoc := mk_sdoc [] (fun _ => None) 1 header None false [] [].

(** 88-125 Finish. PdfWriter.cpp:131-183 WritePdfObjects, not incremental: one object. [z] and [n] as in StreamModel. *)
Definition one_text (z : zlib) (n : nat) (o : wopts) (d : sdoc) (r : ref) (v : obj) : res (list Z) :=
  match streams d r, v with
  | Some (Memory b fs), ODict e => fst (write_stream z (at_ref (objects d)) (wfl o) (wtight o) (wflate o r) n r (mk_sobj e b fs))
  | Some (Direct _ _ locked), _ => if wflate o r then Err (if locked : bool then EInternalLogic else ENotImplemented) else obj_text (wfl o) (wtight o) r v
  | _, _ => obj_text (wfl o) (wtight o) r v
  end.
Fixpoint write_all (z : zlib) (n : nat) (o : wopts) (l : list (ref * obj)) (d : sdoc) : res unit * sdoc :=
  match l with
  | [] => (Ok tt, d)
  | (r, v) :: t =>
    match one_text z n o d r v with
    | Ok b => write_all z n o t (let d1 := add_entry d r in with_dev d1 (dev d1 ++ b))
    | Err e => (Err e, add_entry d r) | UB => (UB, add_entry d r) | Fuel => (Fuel, add_entry d r)
    end
  end.
(** The table is written behind the objects (not part of [dev] here, see XrefModel), then an error is raised (103). *)
Definition finish (z : zlib) (n : nat) (o : wopts) (d : sdoc) : res unit * sdoc :=
  let d := finish_last d in
  match write_all z n o (objects d) d with
  | (Ok _, d1) => (Err ENotImplemented, d1)
  | x => x
  end.
