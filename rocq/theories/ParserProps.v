(** Properties of the reading of a file's structure *)
From Coq Require Import String.
From Verif Require Import Base TokModel WriteModel DictProofs ObjSpec ObjPropLemmas UtilModel ListModel XrefModel XrefSpec ParserModel ParserSpec ParserProofs ParserPropLemmas.
Local Open Scope Z_scope.
Local Notation dict := (list (list Z * obj)) (only parsing).

(** A file without cross-reference streams *)
Definition no_stm (d : nat) (off : Z) : res (dict * list Z) := Err ENoXRef.

(** A file with its header at the start, the last lines of 7.5.5 and a chain of sections (tables or streams) from startxref
    along /Prev, of at most about 127 sections: it is read; each number is resolved by the newest section that lists it, and
    by none otherwise; the keys Size, Root, Encrypt, Info and ID have the value of the newest trailer with the key, the
    others that of the newest trailer. The chain ends without /Prev or leads back into itself. Missing: longer chains and a
    header that is not at the start, see the refutations; sections with /XRefStm; texts laid out by other writers. *)
Theorem C24_newest_wins_partial strict file stm v x l : has_header file v -> has_end strict file (coff x) ->
  Z.of_nat (length file) < 2 ^ 63 ->
  let E := mk_penv file strict 0 (at_least_13 (get_version v)) stm in
  Forall (present E) (x :: l) -> closed (x :: l) (x :: l) -> NoDup (map coff (x :: l)) ->
  (forall y, In y (x :: l) -> 2 * length (x :: l) + cneed y <= 256)%nat ->
  (exists n, newest_key (bs "Size") (x :: l) = Some (ONum n)) ->
  exists st t, parse_file strict file stm new_parser = (Ok tt, st) /\
    (forall n r, 0 <= n -> (look (ents st) n = Some r <-> newest E (x :: l) n r)) /\
    trail st = Some t /\
    (forall k, In k file_keys -> dict_get k t = newest_key k (x :: l)) /\
    (forall k, ~ In k file_keys -> dict_get k t = dict_get k (cdict x)).
Proof. exact (file_newest strict file stm v x l). Qed.
Print Assumptions C24_newest_wins_partial.
(** A chain of 128 tables or more is not read, however simple they are *)
Theorem C24_long_chain_refuted E x l st : Z.of_nat (length (pfile E)) < 2 ^ 63 -> pmagic E = 0 ->
  Forall (present E) (x :: l) -> linked E (x :: l) -> NoDup (map coff (x :: l)) ->
  Forall (fun y => cstream y = false /\ (cneed y <= 2)%nat) (x :: l) ->
  queue st = [] -> (forall y, In y (x :: l) -> ~ In (coff y) (visited st)) -> (128 <= length (x :: l))%nat ->
  exists st', run E levels (JTable (coff x)) st = (Err EInvalidXRef, st').
Proof. exact (too_long E x l st). Qed.
Print Assumptions C24_long_chain_refuted.
(** a file with [n] updates *)
Fixpoint updates (n : nat) : list Z * Z :=
  match n with
  | O => (bs "%PDF-1.4 xref 0 1 0000000000 65535 f  trailer <</Size 1>> ", 9)
  | S n' => let '(f, o) := updates n' in
            (f ++ bs "xref 0 1 0000000000 65535 f  trailer <</Prev " ++ dec o ++ bs "/Size 1>> ", Z.of_nat (length f))
  end.
Definition updated (n : nat) : list Z := let '(f, o) := updates n in f ++ bs "startxref " ++ dec o ++ bs " %%EOF".
Example C24_long_case : (exists st, parse_file false (updated 126) no_stm new_parser = (Ok tt, st)) /\
  (exists st, parse_file false (updated 127) no_stm new_parser = (Err EInvalidXRef, st)).
Proof. split; eexists; vm_compute; reflexivity. Qed.
(** The same file with one revision or two, two bytes before the header and all offsets counted from the header: with one
    it is read, with two it is not (startxref is moved by the offset of the header, /Prev is not) *)
Definition moved_one : list Z := bs "x
%PDF-1.4
xref
0 1
0000000000 65535 f 
trailer
<</Root 1 0 R/Size 3>>
startxref
9
%%EOF
".
Definition moved_two : list Z := bs "x
%PDF-1.4
xref
0 1
0000000000 65535 f 
trailer
<</Root 1 0 R/Size 3>>
xref
0 1
0000000000 65535 f 
trailer
<</Prev 9/Size 4>>
startxref
69
%%EOF
".
Theorem C24_header_offset_refuted :
  (exists st, parse_file false moved_one no_stm new_parser = (Ok tt, st)) /\
  (exists st, parse_file false (skipn 2 moved_two) no_stm new_parser = (Ok tt, st)) /\
  (exists st, parse_file false moved_two no_stm new_parser = (Err ENoXRef, st)).
Proof. split; [|split]; eexists; vm_compute; reflexivity. Qed.
Print Assumptions C24_header_offset_refuted.

(** Two revisions: object 1 comes from the first, object 2 from the second; Root from the first trailer, Size from the second *)
Definition two_file : list Z := bs "%PDF-1.4
1 0 obj 11 endobj
2 0 obj 22 endobj
xref
0 3
0000000000 65535 f 
0000000009 00000 n 
0000000027 00000 n 
trailer
<</Root 1 0 R/Size 3>>
2 0 obj 33 endobj
xref
0 1
0000000000 65535 f 
2 1
0000000145 00000 n 
trailer
<</Prev 45/Size 4>>
startxref
163
%%EOF
".
Definition two_new : csec := mk_csec 163 [(bs "Prev", ONum 45); (bs "Size", ONum 4)]
  [(0, 1, [(0, XFree 0 65535)]); (2, 1, [(2, XUsed 145 0)])] false.
Definition two_old : csec := mk_csec 45 [(bs "Root", ORef 1 0); (bs "Size", ONum 3)]
  [(0, 3, [(0, XFree 0 65535); (1, XUsed 9 0); (2, XUsed 27 0)])] false.
Example C24_case : parse_file false two_file no_stm new_parser
  = (Ok tt, mk_pst [45; 163] [Some (RFree 0 65535); Some (RUsed 9 0); Some (RUsed 145 0)]
       (Some [(bs "Prev", ONum 45); (bs "Root", ORef 1 0); (bs "Size", ONum 4)]) [] 7 [45; 163]).
Proof. vm_compute. reflexivity. Qed.
(** it has the form the theorem asks for *)
Example C24_case_form : has_header two_file (bs "1.4") /\ has_end false two_file 163 /\
  Forall (present (mk_penv two_file false 0 true no_stm)) [two_new; two_old] /\ closed [two_new; two_old] [two_new; two_old].
Proof.
  split; [|split; [|split]].
  - split; [right; right; right; right; left; reflexivity|eexists; reflexivity].
  - exists (firstn 244 two_file), [10], [], 10, [10]. split; [vm_compute; reflexivity|]. split; [discriminate|]. split; [discriminate|].
    split; [repeat constructor|]. split; [lia|]. split; [|vm_compute; lia].
    intros i I [q Q]. do 6 (destruct i as [|i]; [try lia; discriminate|]). cbn in Q. destruct i; discriminate.
  - constructor; [|constructor; [|constructor]].
    + split; [vm_compute; split; discriminate|]. split; [repeat split; vm_compute; congruence|]. split; [apply wf_objb_ok; vm_compute; reflexivity|].
      split; [repeat constructor; vm_compute; intuition congruence|]. split; [cbn; lia|]. split; [reflexivity|].
      exists (mk_wf false false). eexists. exists (skipn 243 two_file). split; [right; reflexivity|]. split; [vm_compute; reflexivity|vm_compute; reflexivity].
    + split; [vm_compute; split; discriminate|]. split; [repeat split; vm_compute; congruence|]. split; [apply wf_objb_ok; vm_compute; reflexivity|].
      split; [repeat constructor; vm_compute; intuition congruence|]. split; [cbn; lia|]. split; [reflexivity|].
      exists (mk_wf false false). eexists. exists (skipn 144 two_file). split; [right; reflexivity|]. split; [vm_compute; reflexivity|vm_compute; reflexivity].
  - split; [reflexivity|]. split; [reflexivity|]. left. reflexivity.
Qed.

(** No offset is visited twice in reading a table and what it leads to, whatever the file; each visit reads at most two
    sections (a table and the stream of its /XRefStm); the offset is visited unless there is an error *)
Theorem C25_once_partial E d off st r st' : run E d (JTable off) st = (r, st') ->
  exists new read, visited st' = new ++ visited st /\ slog st' = read ++ slog st /\ NoDup new /\
    (forall x, In x new -> ~ In x (visited st)) /\ (length read <= 2 * length new)%nat /\
    ((exists e, r = Err e) \/ In off (visited st')).
Proof. exact (once E d off st r st'). Qed.
Print Assumptions C25_once_partial.
(** It stops, if the loading of cross-reference streams does *)
Theorem C25_stops strict file stm st : (forall d off, stm d off <> Fuel) -> fst (parse_file strict file stm st) <> Fuel.
Proof. exact (parse_file_nofuel strict file stm st). Qed.
Print Assumptions C25_stops.
(** A stream section is not protected: here it is read twice, as /XRefStm of two tables *)
Definition stm_at_9 (d : nat) (off : Z) : res (dict * list Z) :=
  if off =? 9 then Ok ([(bs "Index", OArr [ONum 5; ONum 1]); (bs "Size", ONum 6); (bs "W", OArr [ONum 1; ONum 1; ONum 1])], [1; 9; 0])
  else Err ENoXRef.
Theorem C25_streams_refuted : exists file stm st, parse_file false file stm new_parser = (Ok tt, st) /\ ~ NoDup (slog st).
Proof.
  exists (bs "%PDF-1.4
7 0 obj
xref
0 1
0000000000 65535 f 
trailer
<</Size 3/XRefStm 9>>
xref
0 1
0000000000 65535 f 
trailer
<</Prev 17/Size 4/XRefStm 9>>
startxref
76
%%EOF
"), stm_at_9. eexists. split; [vm_compute; reflexivity|]. cbn [slog]. intros N. apply NoDup_cons_iff in N. destruct N as [N _]. apply N. right; left; reflexivity.
Qed.
Print Assumptions C25_streams_refuted.
(** two tables whose /Prev lead to each other *)
Example C25_case : exists st, parse_file false (bs "%PDF-1.4
xref
0 1
0000000000 65535 f 
trailer
<</Prev 66/Size 3>>
xref
0 1
0000000000 65535 f 
trailer
<</Prev 9/Size 3>>
startxref
66
%%EOF
") no_stm new_parser = (Ok tt, st) /\ visited st = [9; 66] /\ slog st = [9; 66].
Proof. eexists. split; [vm_compute; reflexivity|split; reflexivity]. Qed.

(** Whatever is left of the entries, the trailer and the position of the marker, a parser that has visited no offset and
    holds no token behaves like a new one; a call that fails on the header leaves all this as it was. Missing: parsers that
    have read a section, see the refutation. *)
Theorem C26_again_partial strict file stm es t last :
  parse_file strict file stm (mk_pst [] es t [] last []) = parse_file strict file stm new_parser.
Proof. exact (like_new strict file stm es t last). Qed.
Print Assumptions C26_again_partial.
Theorem C26_header_partial strict file stm st st' : parse_file strict file stm st = (Err ENoPdfFile, st') -> is_pdf_file file = None ->
  visited st' = visited st /\ queue st' = queue st.
Proof. exact (header_state strict file stm st st'). Qed.
Print Assumptions C26_header_partial.
(** No file that has been read with success can be read again with the same parser: the visited offsets are not reset *)
Theorem C26_again_refuted strict file stm st st' : queue st = [] -> queue st' = [] -> parse_file strict file stm st = (Ok tt, st') ->
  exists st'', parse_file strict file stm st' = (Err EInvalidXRef, st'').
Proof. exact (again_fails strict file stm st st'). Qed.
Print Assumptions C26_again_refuted.
Example C26_case : exists st st', parse_file false two_file no_stm new_parser = (Ok tt, st) /\ queue st = [] /\
  parse_file false two_file no_stm st = (Err EInvalidXRef, st').
Proof. eexists. eexists. split; [vm_compute; reflexivity|]. split; [reflexivity|vm_compute; reflexivity]. Qed.

(** A file taken as PDF has the header of a version at the offset found *)
Theorem C27_sound file m v : is_pdf_file file = Some (m, v) ->
  exists pre w r, file = pre ++ bs "%PDF-" ++ w ++ r /\ In w pdf_versions /\ get_version w = v /\ m = Z.of_nat (length pre).
Proof. exact (header_sound file m v). Qed.
Print Assumptions C27_sound.
(** The first header is found if what precedes has no per cent sign, or does not end in a byte of "%PDF-". Missing: other
    beginnings, see the refutation. *)
Theorem C27_found_partial pre v r : (forall i, ~ occurs (bs "%PDF-") pre i) -> ~ In 37 pre \/ pre = [] \/ ~ In (last pre 0) (bs "%PDF-") ->
  In v pdf_versions -> is_pdf_file (pre ++ bs "%PDF-" ++ v ++ r) = Some (Z.of_nat (length pre), get_version v).
Proof. exact (header_found pre v r). Qed.
Print Assumptions C27_found_partial.
(** One per cent sign before the header hides it; and so does an earlier "%PDF-" without a version *)
Theorem C27_found_refuted : is_pdf_file (bs "%%PDF-1.4") = None /\ is_pdf_file (bs "%PDF-?.? %PDF-1.4") = None /\
  is_pdf_file (bs "%PDF-1.4") = Some (0, V14).
Proof. split; [|split]; vm_compute; reflexivity. Qed.
Print Assumptions C27_found_refuted.
Example C27_case : is_pdf_file (bs "50% %P %PDF %PDF -1.3 x%PDF-1.7 and so on") = Some (23, V17) /\ is_pdf_file (bs "%PDF-1.") = None.
Proof. split; vm_compute; reflexivity. Qed.

(** The last lines of 7.5.5, with any white space between them, lead to the offset, whatever precedes. In strict mode the
    marker is the end of the file; else anything but another marker may follow. Missing: more than 512 bytes from startxref
    to the marker. *)
Theorem C77_end_partial strict file n : has_end strict file n -> exists last, check_eof strict file = Ok last /\
  forall magic, exists s, find_xref strict magic file last [] = (Ok (u64 (n + magic)), s) /\ tq s = [].
Proof. exact (end_found strict file n). Qed.
Print Assumptions C77_end_partial.
(** In strict mode a line end after the marker is an error (the library writes one); startxref at the very start of the 512
    bytes that are searched is an internal error; an offset beyond the file is replaced by that of the letters xref in
    "startxref" *)
Theorem C77_end_refuted :
  (forall a, (2 <= length a)%nat -> check_eof true (a ++ bs "%%EOF" ++ [10]) = Err ENoEOFToken) /\
  find_xref false 0 (bs "startxref 0 %%EOF") 6 [] = (Err EInternalLogic, mk_tst [] []) /\
  (exists file st, has_end false file 99999 /\ locate (mk_penv file false 0 true no_stm) 99999 st = (Ok 6, []) /\
     firstn 9 (skipn 1 file) = bs "startxref").
Proof. exact end_cases. Qed.
Print Assumptions C77_end_refuted.
Example C77_case : has_end true (bs "x startxref  17 %%EOF") 17 /\
  find_xref true 3 (bs "x startxref  17 %%EOF") 0 [] = (Ok 20, mk_tst [] (bs " %%EOF")).
Proof.
  split; [|vm_compute; reflexivity]. exists (bs "x "), [32; 32], [], 32, []. split; [vm_compute; reflexivity|]. split; [discriminate|]. split; [discriminate|].
  split; [repeat constructor|]. split; [lia|]. split; [reflexivity|vm_compute; lia].
Qed.

(** A file without trailer: the trailer is used although there is none. A section without trailer is taken as complete. *)
Theorem C78_trailer_refuted : exists file, fst (parse_file false file no_stm new_parser) = UB.
Proof. exists (bs "%PDF-1.4
xref
0 0
startxref
9
%%EOF"). vm_compute. reflexivity. Qed.
Print Assumptions C78_trailer_refuted.
(** Once a trailer has been read, the parser does nothing undefined unless the loading of a stream or the table does. *)
Theorem C78_trailer_partial strict file stm st st' : parse_file strict file stm st = (Ok tt, st') -> exists t, trail st' = Some t.
Proof. exact (trailer_there strict file stm st st'). Qed.
Print Assumptions C78_trailer_partial.
