(** Properties of saving: incremental updates, whole files *)
From Coq Require Import String.
From Verif Require Import Base TokModel WriteModel DictProofs ObjSpec ObjPropLemmas UtilModel ListModel XrefModel XrefSpec ParserModel ParserSpec UpdateModel UpdateSpec UpdateProofs UpdatePropLemmas ParserProps.
Local Open Scope Z_scope.
Local Notation dict := (list (list Z * obj)) (only parsing).

(** An incremental save after a file with a chain of sections (tables or streams): the old bytes stay; a reader finds each
    modified object in its new form, each freed number as free, every other number where it was found before, and there the
    same object if it is there as the writer writes it; Root and Info are those of the document. Missing: a header that is
    not at the start, see the refutation; more than 510 modified or freed objects, and chains beyond the recursion guard (C20,
    C24); streams; old objects that are laid out differently (their entries stay). *)
Theorem C37_update_partial fl tight file objs frees old id v x l stm stm' F : options_ok fl tight -> saveable objs frees ->
  trailer_parts old (coff x) id -> has_header file v -> (length (changed true objs frees) < 511)%nat ->
  let E := mk_penv file false 0 (at_least_13 (get_version v)) stm in
  Forall (present E) (x :: l) -> NoDup (map coff (x :: l)) -> closed (x :: l) (x :: l) -> 0 < coff x ->
  (forall y, In y (x :: l) -> 2 * S (length (x :: l)) + cneed y <= 256)%nat ->
  (forall y d, In y (x :: l) -> stm' d (coff y) = stm d (coff y)) ->
  save fl tight true file objs frees old (coff x) id = Ok F -> Z.of_nat (length F) < 10 ^ 10 ->
  exists st t, parse_file false F stm' new_parser = (Ok tt, st) /\ trail st = Some t /\
    (exists u, F = file ++ u) /\
    (forall r o, In (r, o, true) objs -> found F (ents st) r o) /\
    (forall r, In r frees -> exists m, look (ents st) (fst r) = Some (RFree m (snd r))) /\
    (forall n r, 1 <= n -> ~ In n (changed true objs frees) -> (look (ents st) n = Some r <-> newest E (x :: l) n r)) /\
    (forall n g off o, 1 <= n -> ~ In n (changed true objs frees) -> newest E (x :: l) n (RUsed off g) -> written file off (n, g) o ->
       found F (ents st) (n, g) o) /\
    (forall k, In k [bs "Root"; bs "Info"] -> dict_get k t = match dict_get k old with Some w => Some w | None => newest_key k (x :: l) end).
Proof. exact (updated_file fl tight file objs frees old id v x l stm stm' F). Qed.
Print Assumptions C37_update_partial.
(** A document saved and then updated any number of times (at most 126): the last save that concerns a number decides, for
    its content or for its being free; a number that no save concerns is not listed *)
Theorem C37_history_partial v stm F off h : In v pdf_versions -> history v F off h -> (length h <= 127)%nat ->
  exists st, parse_file false F stm new_parser = (Ok tt, st) /\
    (forall r o, last_object h r o -> found F (ents st) r o) /\
    (forall r, last_free h r -> exists m, look (ents st) (fst r) = Some (RFree m (snd r))) /\
    (forall n, 1 <= n -> never h n -> look (ents st) n = None).
Proof. exact (history_read v stm F off h). Qed.
Print Assumptions C37_history_partial.
(** Saves succeed *)
Theorem C37_save_total fl tight inc file objs frees old prev id : saveable objs frees -> trailer_parts old prev id ->
  inc = true \/ objs <> [] \/ frees <> [] -> exists F, save fl tight inc file objs frees old prev id = Ok F.
Proof. exact (save_total fl tight inc file objs frees old prev id). Qed.
Print Assumptions C37_save_total.

(** Object 2 of the two-revision file is modified, object 3 is new, object 1 is removed *)
Definition plain : wflags := mk_wf false false.
Definition third : res (list Z) :=
  save plain false true two_file [((2, 0), OStr false (bs "x"), true); ((3, 0), ONum 7, true); ((4, 0), ONull, false)] [(1, 1)]
    [(bs "Root", ORef 2 0)] 163 [OStr true [1; 255]].
Example C37_case : exists F st, third = Ok F /\ parse_file false F no_stm new_parser = (Ok tt, st) /\
  ents st = [Some (RFree 1 65535); Some (RFree 0 1); Some (RUsed 264 0); Some (RUsed 283 0)] /\
  load_object F 264 = Ok ((2, 0), OStr false (bs "x"), false) /\ load_object F 283 = Ok ((3, 0), ONum 7, false) /\
  skipn 264 F = bs "2 0 obj
(x)
endobj
3 0 obj
 7
endobj
xref
0 4
0000000001 65535 f 
0000000000 00001 f 
0000000264 00000 n 
0000000283 00000 n 
trailer
<</ID[<01FF>]/Prev 163/Root 2 0 R/Size 5>>
startxref
301
%%EOF
".
Proof. eexists. eexists. split; [vm_compute; reflexivity|]. split; [vm_compute; reflexivity|]. split; [reflexivity|]. split; [vm_compute; reflexivity|]. split; vm_compute; reflexivity. Qed.
(** Two bytes before the header: the offsets are written from the start of the file, the reader counts from the header. The
    file is read before the update and not after it. *)
Theorem C37_header_refuted : exists F, save plain false true moved_one [((1, 0), ONum 5, true)] [] [(bs "Root", ORef 1 0)] 11 [] = Ok F /\
  (exists st, parse_file false moved_one no_stm new_parser = (Ok tt, st) /\ visited st = [11]) /\
  (exists st, parse_file false F no_stm new_parser = (Err ENoXRef, st)).
Proof. eexists. split; [vm_compute; reflexivity|]. split; eexists; [split|]; vm_compute; reflexivity. Qed.
Print Assumptions C37_header_refuted.

(** A whole document, saved and loaded: the list has exactly the objects saved, with their references and values; Root, Info
    and ID are those of the trailer. Missing: more than 510 objects that leave gaps; streams; the free entries, see the
    refutation. *)
Theorem C79_save_load_partial fl tight objs frees old id v stm F : options_ok fl tight -> saveable objs frees -> trailer_parts old 0 id ->
  objs <> [] \/ frees <> [] -> In v pdf_versions -> (length objs + length frees < 511)%nat ->
  save fl tight false (header_text v) objs frees old 0 id = Ok F -> Z.of_nat (length F) < 10 ^ 10 ->
  exists st t s, parse_file false F stm new_parser = (Ok tt, st) /\ trail st = Some t /\
    (forall k, In k [bs "Root"; bs "Info"] -> dict_get k t = dict_get k old) /\ dict_get (bs "ID") t = Some (OArr id) /\
    (forall r o d, In (r, o, d) objs -> found F (ents st) r o) /\
    fill_objects false F 0 (ents st) empty_list = Ok s /\
    (forall r w, In (r, w) (live s) <-> exists o d, In (r, o, d) objs /\ w = (o, None)).
Proof. exact (saved_file fl tight objs frees old id v stm F). Qed.
Print Assumptions C79_save_load_partial.
Definition saved_case : list wobj :=
  [((1, 0), ODict [(bs "Pages", ORef 2 0); (bs "Type", OName (bs "Catalog"))], true); ((2, 0), OArr [OStr false [40; 13; 92; 200]; ONum (-5); OReal 15 1], true);
   ((7, 3), OBool true, false)].
Example C79_case : exists F st s, save (mk_wf true true) false false (header_text (bs "1.7")) saved_case [(4, 0); (5, 2)] [(bs "Root", ORef 1 0)] 0 [OStr true [7]] = Ok F /\
  parse_file false F no_stm new_parser = (Ok tt, st) /\ fill_objects false F 0 (ents st) empty_list = Ok s /\
  live s = map (fun x => (fst (fst x), (snd (fst x), None))) saved_case /\ frees s = [(3, 1); (4, 1); (5, 3); (6, 1)].
Proof. eexists. eexists. eexists. split; [vm_compute; reflexivity|]. split; [vm_compute; reflexivity|]. split; [vm_compute; reflexivity|]. split; reflexivity. Qed.
(** The generation of a free entry grows by one with each save and load *)
Theorem C79_free_refuted : exists objs F st s, save plain false false (header_text (bs "1.7")) objs [(2, 1)] [(bs "Root", ORef 1 0)] 0 [] = Ok F /\
  parse_file false F no_stm new_parser = (Ok tt, st) /\ fill_objects false F 0 (ents st) empty_list = Ok s /\ frees s = [(2, 2)].
Proof. exists [((1, 0), ONull, true)]. eexists. eexists. eexists. split; [vm_compute; reflexivity|]. split; [vm_compute; reflexivity|]. split; [vm_compute; reflexivity|reflexivity]. Qed.
Print Assumptions C79_free_refuted.
