(** Properties of signing *)
From Coq Require Import String.
From Verif Require Import Base TokModel WriteModel DictProofs ObjSpec ObjPropLemmas UtilModel ListModel XrefModel XrefSpec ParserModel ParserSpec ConformSpec GrammarSpec UpdateModel UpdateSpec UpdateProofs UpdatePropLemmas ParserProps UpdateProps SignModel SignSpec SignProofs SignPropLemmas SignReadProofs.
Local Open Scope Z_scope.
Local Notation dict := (list (list Z * obj)) (only parsing).

(** A signed document. The bytes the signer is given, part after part, are the bytes /ByteRange covers in the final file: all
    but the /Contents string, which lies between the two ranges from its angle bracket to its angle bracket. Signing succeeds
    exactly if the signature is not longer than the one of the dry run; then a reader finds the signature dictionary with
    /ByteRange and with the signature, filled up with zeros. The old file is a prefix; the other modified objects, the freed
    numbers, the other numbers, Root and Info are as after an update (C37); unmodified objects may be spelled in any way.
    Missing: what C37 misses. *)
Theorem C111_signed_partial fl tight file before r d after frees old id filter sub type n signer v x l stm stm' F res :
  let e := plain_entries filter sub type d in
  let objs := before ++ (r, ODict e, true) :: after in
  options_ok fl tight -> signable before r e after frees -> trailer_parts old (coff x) id -> has_header file v -> (length (changed true objs frees) < 511)%nat ->
  (forall parts, bytes_ok (signer parts)) ->
  let E := mk_penv file false 0 (at_least_13 (get_version v)) stm in
  Forall (present E) (x :: l) -> NoDup (map coff (x :: l)) -> closed (x :: l) (x :: l) -> 0 < coff x ->
  (forall y, In y (x :: l) -> 2 * S (length (x :: l)) + cneed y <= 256)%nat ->
  (forall y d, In y (x :: l) -> stm' d (coff y) = stm d (coff y)) ->
  sign_document fl tight file before r d after frees old (coff x) id filter sub type n signer = Ok (F, res) -> Z.of_nat (length F) < 10 ^ 10 ->
  exists parts o p q st t, let range := [ONum 0; ONum o; ONum p; ONum q] in let s := signer parts in
    range_bytes F range = Some (concat parts) /\ Forall (fun b => b <> [] /\ Z.of_nat (length b) <= 65536) parts /\
    0 < o /\ p = o + 2 * Z.of_nat n + 2 /\ p + q = Z.of_nat (length F) /\
    parse_file false F stm' new_parser = (Ok tt, st) /\ trail st = Some t /\ (exists u, F = file ++ u) /\
    (res = Ok tt <-> (length s <= n)%nat) /\
    (if Nat.ltb n (length s) then res = Err EInternalLogic /\ firstn (Z.to_nat (p - o)) (skipn (Z.to_nat o) F) = repeat 32 (2 * n + 2)
     else let contents := s ++ repeat 0 (n - length s) in
       found F (ents st) r (ODict (signed_dict e range contents)) /\ spelled default_params (firstn (Z.to_nat (p - o)) (skipn (Z.to_nat o) F)) (OStr true contents)) /\
    (forall r' o', In (r', o', true) (before ++ after) -> found F (ents st) r' o') /\
    (forall r', In r' frees -> exists m, look (ents st) (fst r') = Some (RFree m (snd r'))) /\
    (forall n r', 1 <= n -> ~ In n (changed true objs frees) -> (look (ents st) n = Some r' <-> newest E (x :: l) n r')) /\
    (forall n g off o', 1 <= n -> ~ In n (changed true objs frees) -> newest E (x :: l) n (RUsed off g) -> stands_at file off (n, g) o' ->
       found F (ents st) (n, g) o') /\
    (forall k, In k [bs "Root"; bs "Info"] -> dict_get k t = match dict_get k old with Some w => Some w | None => newest_key k (x :: l) end).
Proof. exact (signed_file fl tight file before r d after frees old id filter sub type n signer v x l stm stm' F res). Qed.
Print Assumptions C111_signed_partial.
(** Signing comes to an end, whatever the signer answers *)
Theorem C111_total fl tight file before r d after frees old prev id filter sub type n signer : signable before r (plain_entries filter sub type d) after frees ->
  trailer_parts old prev id -> exists F res, sign_document fl tight file before r d after frees old prev id filter sub type n signer = Ok (F, res).
Proof. exact (sign_total fl tight file before r d after frees old prev id filter sub type n signer). Qed.
Print Assumptions C111_total.
(** An object in any spelling is loaded from its offset as that object *)
Theorem C111_load file off r o : stands_at file off r o -> load_object file off = Ok (r, o, false).
Proof. exact (load_stands file off r o). Qed.
Print Assumptions C111_load.

(** After an update (C37) the unmodified objects of the file are found in whatever spelling they are *)
Theorem C37_spelled_partial fl tight file objs frees old id v x l stm stm' F : options_ok fl tight -> saveable objs frees ->
  trailer_parts old (coff x) id -> has_header file v -> (length (changed true objs frees) < 511)%nat ->
  let E := mk_penv file false 0 (at_least_13 (get_version v)) stm in
  Forall (present E) (x :: l) -> NoDup (map coff (x :: l)) -> closed (x :: l) (x :: l) -> 0 < coff x ->
  (forall y, In y (x :: l) -> 2 * S (length (x :: l)) + cneed y <= 256)%nat ->
  (forall y d, In y (x :: l) -> stm' d (coff y) = stm d (coff y)) ->
  save fl tight true file objs frees old (coff x) id = Ok F -> Z.of_nat (length F) < 10 ^ 10 ->
  exists st, parse_file false F stm' new_parser = (Ok tt, st) /\
    (forall r o, In (r, o, true) objs -> found F (ents st) r o) /\
    (forall n g off o, 1 <= n -> ~ In n (changed true objs frees) -> newest E (x :: l) n (RUsed off g) -> stands_at file off (n, g) o ->
       found F (ents st) (n, g) o).
Proof.
  intros OK SV TP HD CH E PR ND CL C0 DP ST SAVE LF.
  destruct (updated_file fl tight file objs frees old id v x l stm stm' F OK SV TP HD CH PR ND CL C0 DP ST SAVE LF) as (st & t & PF & _ & [u FE] & FO & _ & UN & _).
  exists st. split; [exact PF|]. split; [exact FO|]. intros n g off o N NC NW S0. exists off. split; [apply UN; assumption|]. rewrite FE. apply load_stands, stands_more, S0.
Qed.
Print Assumptions C37_spelled_partial.

(** A two-revision file is signed: the signer answers with the number of bytes it was given, the dry run was three bytes long *)
Definition sign_with (signer : list (list Z) -> list Z) (n : nat) : res (list Z * res unit) :=
  sign_document plain false two_file [((2, 0), OStr false (bs "x"), true)] (3, 0) [(bs "M", OStr false (bs "D:2020"))] [((4, 0), ONull, false)] [(1, 1)]
    [(bs "Root", ORef 2 0)] 163 [OStr true [1; 255]] (bs "Adobe.PPKLite") (bs "adbe.pkcs7.detached") (bs "Sig") n signer.
Definition counting (parts : list (list Z)) : list Z := let n := Z.of_nat (length (concat parts)) in [n / 256; n mod 256].
Example C111_case : exists F st, sign_with counting 3 = Ok (F, Ok tt) /\ parse_file false F no_stm new_parser = (Ok tt, st) /\ length F = 597%nat /\
  look (ents st) 3 = Some (RUsed 283 0) /\
  load_object F 283 = Ok ((3, 0), ODict [(bs "ByteRange", OArr [ONum 0; ONum 358; ONum 366; ONum 231]); (bs "Contents", OStr true [2; 77; 0]);
    (bs "Filter", OName (bs "Adobe.PPKLite")); (bs "M", OStr false (bs "D:2020")); (bs "SubFilter", OName (bs "adbe.pkcs7.detached")); (bs "Type", OName (bs "Sig"))], false) /\
  skipn 264 F = bs "2 0 obj
(x)
endobj
3 0 obj
<</Type/Sig/ByteRange[ 0 358 366 231]                     /Contents<024D00>/Filter/Adobe.PPKLite/M(D:2020)/SubFilter/adbe.pkcs7.detached>>
endobj
xref
0 4
0000000001 65535 f 
0000000000 00001 f 
0000000264 00000 n 
0000000283 00000 n 
trailer
<</ID[<01FF>]/Prev 163/Root 2 0 R/Size 5>>
startxref
437
%%EOF
".
Proof. eexists. eexists. split; [vm_compute; reflexivity|]. split; [vm_compute; reflexivity|]. split; [reflexivity|]. split; [reflexivity|]. split; vm_compute; reflexivity. Qed.

(** A signature that does not fit is an error, but the file has been changed by then: the place of /Contents is blank, so that
    the next key is read as its value and the dictionary is not read. *)
Theorem C111_failed_refuted : exists F st, sign_with counting 1 = Ok (F, Err EInternalLogic) /\ parse_file false F no_stm new_parser = (Ok tt, st) /\
  look (ents st) 3 = Some (RUsed 283 0) /\ load_object F 283 = Err EInvalidDataType.
Proof. eexists. eexists. split; [vm_compute; reflexivity|]. split; [vm_compute; reflexivity|]. split; [reflexivity|]. vm_compute. reflexivity. Qed.
Print Assumptions C111_failed_refuted.
(** The values of the document stay raw data: written again after signing, the dictionary has neither the range nor the
    signature, and the keys are mistaken for values *)
Theorem C111_again_refuted : exists t m d, put_signature plain false 0 (3, 0) (prepare (bs "Adobe.PPKLite") (bs "adbe.pkcs7.detached") (bs "Sig") 3 []) = Ok (t, m) /\
  load_object t 0 = Ok ((3, 0), ODict d, false) /\ dict_get (bs "ByteRange") d = Some (OName (bs "Contents")) /\ dict_get (bs "Contents") d = None.
Proof. eexists. eexists. eexists. split; [vm_compute; reflexivity|]. split; [vm_compute; reflexivity|]. split; vm_compute; reflexivity. Qed.
Print Assumptions C111_again_refuted.
