(** Writing files: objects, table, trailer; incremental updates. base/PdfObject.cpp:209-283 Write, base/PdfWriter.cpp,
    base/PdfXRef.cpp. *)
From Coq Require Import String.
From Verif Require Import Base TokModel WriteModel DictProofs ListModel XrefModel.
Local Open Scope Z_scope.
Local Notation dict := (list (list Z * obj)) (only parsing).

(** PdfObject.cpp:218-233, 271-278: an indirect object without stream, not encrypted. [tight]: NoPDFAPreserve without Clean,
    there is no line end after "obj". *)
Definition obj_text (fl : wflags) (tight : bool) (r : ref) (o : obj) : res (list Z) :=
  do t <- write fl o;
  Ok (dec (fst r) ++ [32] ++ dec (snd r) ++ bs " obj" ++ (if tight then [] else [10]) ++ t ++ [10] ++ bs "endobj" ++ [10]).
(** An object of the list, and whether it is dirty *)
Definition wobj : Type := ref * obj * bool.
(** PdfWriter.cpp:131-183 WritePdfObjects from the position [pos] of the device; [inc]: m_IncrementalUpdate.
    m_rewriteXRefTable is false (PdfMemDocument.cpp:274). What is written and what is added to the table. *)
Fixpoint put_objects (fl : wflags) (tight inc : bool) (pos : Z) (l : list wobj) : res (list Z * list (ref * xadd)) :=
  match l with
  | [] => Ok ([], [])
  | (r, o, dirty) :: t =>
    if inc && negb dirty then
      do p <- put_objects fl tight inc pos t; Ok (fst p, (r, XInUse None) :: snd p)
    else
      do b <- obj_text fl tight r o;
      do p <- put_objects fl tight inc (pos + Z.of_nat (length b)) t;
      Ok (b ++ fst p, (r, XInUse (Some pos)) :: snd p)
  end.
(** 185-219 FillTrailerObject without encryption: [old] is the trailer of the document, [id] the array of identifiers *)
Definition copy_key (old : dict) (k : list Z) (d : dict) : dict :=
  match dict_get k old with Some v => dict_add k v d | None => d end.
Definition fill_trailer (old : dict) (size prev : Z) (id : list obj) : dict :=
  let d := copy_key old (bs "Info") (copy_key old (bs "Root") (dict_add (bs "Size") (ONum size) [])) in
  let d := dict_add (bs "ID") (OArr id) d in
  if 0 <? prev then dict_add (bs "Prev") (ONum prev) d else d.
(** PdfXRef.cpp:287-305, the objects and the table after [file], which is what is on the device: PdfWriter.cpp:72-123.
    [inc] false: [file] is the header, [prev] is 0. *)
Definition save (fl : wflags) (tight inc : bool) (file : list Z) (objs : list wobj) (frees : list ref) (old : dict) (prev : Z)
  (id : list obj) : res (list Z) :=
  do p <- put_objects fl tight inc (Z.of_nat (length file)) objs;
  let adds := snd p ++ map (fun r => (r, XFreed)) frees in
  let tab := add_objects adds in
  do secs <- xref_sections (if inc then first_empty tab else tab);
  do t <- write fl (ODict (fill_trailer old (xref_size tab) prev id));
  Ok (file ++ fst p ++ table_text secs ++ bs "trailer" ++ [10] ++ t ++ [10] ++
      bs "startxref" ++ [10] ++ dec (Z.of_nat (length file) + Z.of_nat (length (fst p))) ++ [10] ++ bs "%%EOF" ++ [10]).
(** 125-129 WritePdfHeader; PDF_MAGIC is "\xe2\xe3\xcf\xd3\n" (22) *)
Definition header_text (v : list Z) : list Z := bs "%PDF-" ++ v ++ [10; 37; 226; 227; 207; 211; 10].

(** ** Loading objects *)

(** PdfParserObject.cpp:71-79, 288-315 readReference, 101-150 Parse: the object at [off], its reference as it is in the file
    (a difference to the expected one is only logged) and whether a stream follows. The value of an empty object is null. *)
Definition load_object (file : list Z) (off : Z) : res (ref * obj * bool) :=
  match next_number 4095 (mk_tst [] (skipn (Z.to_nat off) file)) with
  | (Ok n, s1) =>
    match next_number 4095 s1 with
    | (Ok g, s2) =>
      let r := (u32 n, u16 g) in
      match next_token 4095 s2 with
      | None => Err EUnexpectedEOF
      | Some (t, s3) =>
        if beq (snd t) (bs "obj") then
          match next_token 4095 s3 with
          | None => Err EUnexpectedEOF
          | Some (t', s4) =>
            if beq (snd t') (bs "endobj") then Ok (r, ONull, false)
            else
              do (v, s5) <- read_variant default_params (3 * length (tin s3) + 3) 0 t' s4;
              match v with
              | None => Err EInvalidDataType
              | Some o =>
                match next_token 4095 s5 with
                | None => Err EUnexpectedEOF
                | Some (e, _) =>
                  if beq (snd e) (bs "endobj") then Ok (r, o, false)
                  else match o with
                       | ODict _ => if beq (snd e) (bs "stream") then Ok (r, o, true) else Err ENoObject
                       | _ => Err ENoObject
                       end
                end
              end
          end
        else Err ENoObject
      end
    | (Err e, _) => Err e | (UB, _) => UB | (Fuel, _) => Fuel
    end
  | (Err e, _) => Err e | (UB, _) => UB | (Fuel, _) => Fuel
  end.
(** The value of a PdfParserObject when it is used; an error is raised then, here the value is null. Streams are left out. *)
Definition loaded (file : list Z) (off : Z) : iobj :=
  match load_object file off with Ok (_, o, _) => (o, None) | _ => (ONull, None) end.

(** PdfParser.cpp:666-785 ReadObjectsInternal without encryption, objects being loaded on demand: the entries from number [i]
    on. The constructor of an object with reference 0 0 raises InvalidHandle (PdfParserObject.cpp:26-27). Compressed objects
    are left out. *)
Fixpoint fill_objects (strict : bool) (file : list Z) (i : Z) (es : rents) (s : olist) : res olist :=
  match es with
  | [] => Ok s
  | e :: t =>
    do s' <- match e with
             | Some (RUsed off g) =>
               if 0 <? off then
                 if (i =? 0) && (u16 g =? 0) then Err EInvalidHandle else Ok (push (i, u16 g) (loaded file off) s)
               else if g =? 0 then (if strict then Err EInvalidXRef else Ok (add_free (i, 1) s))
               else Ok s
             | Some (RFree _ g) => Ok (if i =? 0 then s else safe_add_free (i, u16 g) s)
             | Some (RComp _ _) => Ok s
             | None => Ok (if i =? 0 then s else add_free (i, 1) s)
             end;
    fill_objects strict file (i + 1) t s'
  end.
