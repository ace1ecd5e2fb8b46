(** Signing a document: base/PdfSigner.cpp, base/PdfSignature.cpp:96-118 PrepareForSigning, base/PdfData.cpp. *)
From Coq Require Import String.
From Verif Require Import Base TokModel WriteModel ListModel XrefModel UpdateModel.
Local Open Scope Z_scope.
Local Notation dict := (list (list Z * obj)) (only parsing).

(** A value of the signature dictionary: an object, or raw data with a beacon (PdfData.h); [c]: the beacon of /Contents,
    otherwise the one of /ByteRange *)
Inductive sval := SObj (o : obj) | SData (c : bool) (b : list Z).
Definition sdict : Type := list (list Z * sval).

(** PdfSigner.cpp:15 ByteRangeBeacon has 37 characters; 155-161 prepareBeaconsData, [n] is the size of the signature *)
Definition range_beacon : list Z := repeat 32 (length (bs "[ 0 1234567890 1234567890 1234567890]")).
Definition contents_beacon (n : nat) : list Z := repeat 32 (2 * n + 2).
(** PdfSignature.cpp:96-118 *)
Definition prepare (filter sub type : list Z) (n : nat) (d : dict) : sdict :=
  let d := dict_add (bs "Type") (OName type) (dict_add (bs "SubFilter") (OName sub) (dict_add (bs "Filter") (OName filter) d)) in
  dict_add (bs "ByteRange") (SData false range_beacon)
    (dict_add (bs "Contents") (SData true (contents_beacon n)) (map (fun p => (fst p, SObj (snd p))) d)).

(** The beacons that have been set, with the positions of the device, in the order of writing *)
Definition marks : Type := list (bool * Z).
(** PdfData.cpp:31-42; PdfVariant.cpp:145-207 for the other values *)
Definition put_value (fl : wflags) (pos : Z) (v : sval) : res (list Z * marks) :=
  match v with
  | SObj o => do t <- write fl o; Ok (t, [])
  | SData c b => Ok (b, [(c, pos)])
  end.
(** PdfDictionary.cpp:190-225: one line of the dictionary after the other, from the position [pos] *)
Fixpoint put_pairs (fl : wflags) (pos : Z) (l : sdict) : res (list Z * marks) :=
  match l with
  | [] => Ok ([], [])
  | (k, v) :: r =>
    do n <- write_name k;
    let h := n ++ (if wclean fl then [32] else []) in
    do (a, m) <- put_value fl (pos + Z.of_nat (length h)) v;
    let t := h ++ a ++ (if wclean fl then [10] else []) in
    do (b, ms) <- put_pairs fl (pos + Z.of_nat (length t)) r;
    Ok (t ++ b, m ++ ms)
  end.
(** the same: /Type is written first *)
Definition type_pairs (d : sdict) : sdict :=
  filter (fun p => beq (fst p) (bs "Type")) d ++ filter (fun p => negb (beq (fst p) (bs "Type"))) d.
Definition put_dict (fl : wflags) (pos : Z) (d : sdict) : res (list Z * marks) :=
  let h := if wclean fl then [60; 60; 10] else [60; 60] in
  do (x, m) <- put_pairs fl (pos + Z.of_nat (length h)) (type_pairs d);
  Ok (h ++ x ++ [62; 62], m).
(** PdfObject.cpp:218-233, 271-278 as [obj_text] *)
Definition put_signature (fl : wflags) (tight : bool) (pos : Z) (r : ref) (d : sdict) : res (list Z * marks) :=
  let h := dec (fst r) ++ [32] ++ dec (snd r) ++ bs " obj" ++ (if tight then [] else [10]) in
  do (x, m) <- put_dict fl (pos + Z.of_nat (length h)) d;
  Ok (h ++ x ++ [10] ++ bs "endobj" ++ [10], m).

(** The rest of [save] after the objects: the table, the trailer and the last lines *)
Definition close_file (fl : wflags) (inc : bool) (file body : list Z) (adds : list (ref * xadd)) (old : dict) (prev : Z) (id : list obj) : res (list Z) :=
  let tab := add_objects adds in
  do secs <- xref_sections (if inc then first_empty tab else tab);
  do t <- write fl (ODict (fill_trailer old (xref_size tab) prev id));
  Ok (file ++ body ++ table_text secs ++ bs "trailer" ++ [10] ++ t ++ [10] ++
      bs "startxref" ++ [10] ++ dec (Z.of_nat (length file) + Z.of_nat (length body)) ++ [10] ++ bs "%%EOF" ++ [10]).
(** PdfMemDocument.cpp:265-298 SaveUpdate as [save], with the signature dictionary [d] as object [r] between the objects
    [before] and [after] in the order of the list. The signature has been changed, so it is written. *)
Definition save_signature (fl : wflags) (tight : bool) (file : list Z) (before : list wobj) (r : ref) (d : sdict) (after : list wobj)
  (frees : list ref) (old : dict) (prev : Z) (id : list obj) : res (list Z * marks) :=
  let pos := Z.of_nat (length file) in
  do (b1, a1) <- put_objects fl tight true pos before;
  let pos1 := pos + Z.of_nat (length b1) in
  do (b2, m) <- put_signature fl tight pos1 r d;
  do (b3, a3) <- put_objects fl tight true (pos1 + Z.of_nat (length b2)) after;
  do F <- close_file fl true file (b1 ++ b2 ++ b3) (a1 ++ (r, XInUse (Some pos1)) :: a3 ++ map (fun r => (r, XFreed)) frees) old prev id;
  Ok (F, m).
(** the beacons are shared pointers; writing sets them, the last one counts. A beacon that was not set is 0 (PdfSignature.cpp:255-259). *)
Definition beacon (c : bool) (m : marks) : Z := fold_left (fun a x => if Bool.eqb (fst x) c then snd x else a) m 0.

(** Seek and Write on the device: StreamDevice of a file or a buffer that is already longer *)
Definition write_at (off : Z) (t file : list Z) : list Z :=
  firstn (Z.to_nat off) file ++ t ++ skipn (Z.to_nat off + length t) file.
(** PdfSigner.cpp:129-142 adjustByteRange: PdfWriteFlags::None *)
Definition no_flags : wflags := mk_wf false false.
Definition adjust_range (roff coff clen : Z) (file : list Z) : res (list Z) :=
  do t <- write no_flags (OArr [ONum 0; ONum coff; ONum (coff + clen); ONum (Z.of_nat (length file) - (coff + clen))]);
  Ok (write_at roff t file).
(** 91-126 readForSignature from position [pos] with a buffer of [size] bytes: what is read and the new position *)
Definition read_part (file : list Z) (coff clen size pos : Z) : list Z * Z :=
  let take p n := firstn (Z.to_nat n) (skipn (Z.to_nat p) file) in
  if pos =? Z.of_nat (length file) then ([], pos)
  else
    let n1 := if pos <? coff then Z.min size (coff - pos) else 0 in
    if (0 <? n1) && (size - n1 =? 0) then (take pos n1, pos + n1)
    else
      let pos2 := if (coff <=? pos + n1) && (pos <? coff + clen) then coff + clen else pos + n1 in
      let n2 := Z.min (size - n1) (Z.of_nat (length file) - pos2) in
      if n2 =? 0 then (take pos n1, pos2) else (take pos n1 ++ take pos2 n2, pos2 + n2).
(** 71-77 the loop: the parts that are appended to the signer. One step for each byte suffices. *)
Fixpoint read_parts (fuel : nat) (file : list Z) (coff clen size pos : Z) : res (list (list Z)) :=
  match fuel with
  | O => Fuel
  | S f =>
    let (b, pos') := read_part file coff clen size pos in
    match b with
    | [] => Ok []
    | _ => do r <- read_parts f file coff clen size pos'; Ok (b :: r)
    end
  end.
Definition buffer_size : Z := 65536.

(** 34-89 SignDocument: [n] is the size of the signature of the dry run, [signer] what the signer computes for the data
    appended since Reset. The file on the device at the end (144-153 setSignature), and whether the signature did not fit (a std::runtime_error, here
    [Err EInternalLogic]). The changes of the form (48-62) are among the objects given. *)
Definition sign_document (fl : wflags) (tight : bool) (file : list Z) (before : list wobj) (r : ref) (d : dict) (after : list wobj)
  (frees : list ref) (old : dict) (prev : Z) (id : list obj) (filter sub type : list Z) (n : nat) (signer : list (list Z) -> list Z)
  : res (list Z * res unit) :=
  do (F, m) <- save_signature fl tight file before r (prepare filter sub type n d) after frees old prev id;
  let roff := beacon false m in
  let coff := beacon true m in
  let clen := Z.of_nat (length (contents_beacon n)) in
  do F1 <- adjust_range roff coff clen F;
  do parts <- read_parts (S (length F1)) F1 coff clen buffer_size 0;
  let s := signer parts in
  if Nat.ltb n (length s) then Ok (F1, Err EInternalLogic)
  else Ok (write_at coff (write_string true (s ++ repeat 0 (n - length s))) F1, Ok tt).
