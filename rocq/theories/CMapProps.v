(** Theorems on CMaps. *)
From Coq Require Import Lia String Permutation.
From Verif Require Import Base TokModel WriteModel ObjSpec TextModel TextSpec CodeModel CodeSpec CodeProofs CodePropLemmas CodeProps CMapModel CMapSpec CMapProofs CMapPropLemmas CMapWriteProofs.
Local Open Scope Z_scope.

(** ** C46 *)
(** Whatever the white space and the spelling of the strings, the sections of a CMap give each code the text it stands for; later sections
    and entries win. Partial: a range with one text has to have one code point (below); names as texts and references to objects are left out. *)
Theorem C46_ranges_partial cs b parts news : Forall both_codes cs -> blank b -> Forall2 (part_means range_means) parts news -> Forall part_one parts ->
  exists m l, parse_cmap (cmap_text cs b parts) = Ok (m, l) /\ forall c p, code_points m c = Some p <-> exists k, c_num k = c_num c /\ stands_for (concat news) k p.
Proof. exact (ranges_read cs b parts news). Qed.
Print Assumptions C46_ranges_partial.
(** Reading comes to an end for any bytes *)
Theorem C46_ends text : parse_cmap text <> Fuel.
Proof. exact (parse_nofuel text). Qed.
Print Assumptions C46_ends.
(** For two or more code points the text is kept whole, and one code point is added: <05> <05> <00660069> means fii *)
Theorem C46_text_refuted cs b p r x q i :
  Forall both_codes cs -> blank b -> white (p_b1 p) -> white (p_b2 p) -> white (p_b3 p) -> 0 <= p_n p < 2 ^ 63 -> p_body p = BRanges [r] -> r_dest r = DOne x -> range_codes r -> is_text x q -> (2 <= length q)%nat ->
  last q 0 + (c_num (word_code (r_hi r)) - c_num (word_code (r_lo r))) <= 1114111 -> 0 <= i <= c_num (word_code (r_hi r)) - c_num (word_code (r_lo r)) ->
  exists m l, parse_cmap (cmap_text cs b [p]) = Ok (m, l) /\ code_points m (mk_code (c_num (word_code (r_lo r)) + i) (c_size (word_code (r_lo r)))) = Some (q ++ [last q 0 + i]) /\ q ++ [last q 0 + i] <> bump q i.
Proof.
  intros. destruct (range_wrong cs b p r x q i) as (m & l & E & C); try assumption. exists m, l. split; [exact E|]. split; [exact C|]. unfold bump. intros D. apply (f_equal (@length Z)) in D.
  match goal with H : (2 <= length q)%nat |- _ => clear - D H; rename H into LQ end. assert (NE : q <> []) by (intros ->; cbn [length] in LQ; lia). destruct (exists_last NE) as (q' & z & E'). rewrite E' in D. rewrite removelast_last, !app_length in D. cbn [length] in D. lia.
Qed.
Print Assumptions C46_text_refuted.

Definition section_text (t : list Z) : list Z := unicode_cmap (bs "<00> <FF>") t.
Example C46_case : exists m l, parse_cmap (section_text (bs "2 beginbfrange" ++ nl ++ bs "<41><43> <0061>" ++ nl ++ bs "<5 0> <51>[<00660069>	<D83D DE00> ]" ++ nl ++ bs "endbfrange" ++ nl ++ bs "1 beginbfchar <43> <005A> endbfchar")) = Ok (m, l) /\
  m_map m = [(mk_code 65 1, [97]); (mk_code 66 1, [98]); (mk_code 67 1, [90]); (mk_code 80 1, [102; 105]); (mk_code 81 1, [128512])].
Proof. eexists. eexists. split; [vm_compute; reflexivity|]. vm_compute. reflexivity. Qed.
Example C46_text_case : exists m l, parse_cmap (section_text (bs "1 beginbfrange <05> <06> <00660069> endbfrange")) = Ok (m, l) /\ m_map m = [(mk_code 5 1, [102; 105; 105]); (mk_code 6 1, [102; 105; 106])].
Proof. eexists. eexists. split; [vm_compute; reflexivity|]. vm_compute. reflexivity. Qed.
(** An empty text, a negative number and a code of five bytes are undefined *)
Theorem C46_undefined_refuted : parse_cmap (section_text (bs "1 beginbfrange <41> <43> <> endbfrange")) = UB /\ parse_cmap (section_text (bs "1 beginbfchar -1 <0041> endbfchar")) = UB /\
  parse_cmap (section_text (bs "1 beginbfchar <0000000041> <0041> endbfchar")) = UB.
Proof. split; [|split]; vm_compute; reflexivity. Qed.
(** A range of all codes of four bytes has no codes *)
Theorem C46_full_refuted : exists m l, parse_cmap (section_text (bs "1 beginbfrange <00000000> <FFFFFFFF> <0041> endbfrange")) = Ok (m, l) /\ m_map m = [].
Proof. eexists. eexists. split; [vm_compute; reflexivity|]. vm_compute. reflexivity. Qed.
(** A name is one text, with its characters as code points. The names of glyphs are not looked up *)
Theorem C46_name_refuted : exists m l, parse_cmap (section_text (bs "1 beginbfchar <41> /Aacute endbfchar")) = Ok (m, l) /\ m_map m = [(mk_code 65 1, [65; 97; 99; 117; 116; 101])].
Proof. eexists. eexists. split; [vm_compute; reflexivity|]. vm_compute. reflexivity. Qed.
Print Assumptions C46_undefined_refuted.
Print Assumptions C46_full_refuted.
Print Assumptions C46_name_refuted.

(** ** C47 *)
(** What is written for a one byte encoding: a range from the first code to the last, with the texts of all codes but the last *)
Theorem C47_texts_partial l look texts : code_ok (l_first l) -> code_ok (l_last l) -> c_num (l_first l) <= c_num (l_last l) -> Z.of_nat (length texts) = c_num (l_last l) - c_num (l_first l) ->
  (forall i, (i < length texts)%nat -> look (c_num (l_first l) + Z.of_nat i) = nth_error texts i) ->
  write_one_byte l look = Ok (cmap_text [(([], code_word (l_first l)), ([], code_word (l_last l)))] [10] (one_byte_parts (l_first l) (l_last l) texts)).
Proof. exact (one_byte_text l look texts). Qed.
Print Assumptions C47_texts_partial.
(** The text is one short, so the map which is written for any one byte encoding cannot be read *)
Theorem C47_short_refuted l look texts : code_ok (l_first l) -> code_ok (l_last l) -> c_num (l_first l) <= c_num (l_last l) < 256 -> Z.of_nat (length texts) = c_num (l_last l) - c_num (l_first l) -> Forall scalars texts ->
  (forall i, (i < length texts)%nat -> look (c_num (l_first l) + Z.of_nat i) = nth_error texts i) ->
  exists text, write_one_byte l look = Ok text /\ parse_cmap text = Err EValueOutOfRange.
Proof. exact (one_byte_fails l look texts). Qed.
Print Assumptions C47_short_refuted.
Example C47_case : exists text, write_one_byte (mk_limits 1 1 (mk_code 65 1) (mk_code 67 1)) (fun c => Some [c + 32]) = Ok text /\ parse_cmap text = Err EValueOutOfRange /\
  text = unicode_cmap (bs "<41><43>") (bs "1 beginbfrange" ++ nl ++ bs "<41> <43> [" ++ nl ++ bs "<0061>" ++ nl ++ bs "<0062>" ++ nl ++ bs "]" ++ nl ++ bs "endbfrange").
Proof. eexists. split; [vm_compute; reflexivity|]. split; [vm_compute; reflexivity|]. vm_compute. reflexivity. Qed.

(** ** C92 *)
(** The ToUnicode map which is written for a map of codes is read as the same map with the same sizes of the codes, whatever the order of the
    ranges in the hash table. Partial: a map which is an identity is read as the identity of all codes (below). *)
Theorem C92_read_back_partial s ps order : reach s ps -> consistent ps -> Forall (fun q => code_ok (fst q) /\ scalars (snd q)) ps -> (forall rs, Permutation rs (order rs)) -> Z.of_nat (length (m_map s)) < 2 ^ 63 ->
  exists text e, write_map order s = Ok text /\ create_from_object text = Ok e /\
    match e with
    | EMap m l => (forall c, code_points m c = code_points s c) /\ l_min l = l_min (m_limits s) /\ l_max l = l_max (m_limits s)
    | EIdentity l => (forall c p, stands_for ps c p -> p = [c_num c]) /\ l_min l = l_min (m_limits s) /\ l_max l = l_max (m_limits s)
    end.
Proof.
  intros R C F O L. destruct (read_back s ps order R C F O L) as (text & e & E1 & E2 & L1 & L2 & M). exists text, e. split; [exact E1|]. split; [exact E2|]. destruct e as [l|m l]; cbn [encoding_limits] in *.
  - split; [|auto]. intros c p ST. apply (M c p). apply (CodeProofs.in_map_iff s ps c p (reach_inv s ps R) C). exact ST.
  - split; [|auto]. intros c. unfold code_points. rewrite (proj2 M). reflexivity.
Qed.
Print Assumptions C92_read_back_partial.
Example C92_case : exists s text, reach s [(mk_code 65 1, [102; 105]); (mk_code 321 2, [128512]); (mk_code 32 1, [32])] /\ write_map (@rev _) s = Ok text /\
  text = unicode_cmap (bs "<0141><0141>" ++ nl ++ bs "<20><41>") (bs "3 beginbfchar" ++ nl ++ bs "<20> <0020>" ++ nl ++ bs "<41> <0066 0069>" ++ nl ++ bs "<0141> <D83DDE00>" ++ nl ++ bs "endbfchar") /\
  exists m l, create_from_object text = Ok (EMap m l) /\ m_map m = m_map s /\ l_min l = 1 /\ l_max l = 2.
Proof.
  eexists. eexists. split; [apply pushes_reach; reflexivity|]. split; [vm_compute; reflexivity|]. split; [vm_compute; reflexivity|]. eexists. eexists. split; [vm_compute; reflexivity|]. repeat split.
Qed.
(** A map of <41> to A is read as the identity: <42> was not mapped and becomes B (PdfIdentityEncoding.cpp:52-56) *)
Theorem C92_identity_refuted : exists s text l, reach s [(mk_code 65 1, [65])] /\ code_points s (mk_code 66 1) = None /\ write_map (fun rs => rs) s = Ok text /\ create_from_object text = Ok (EIdentity l).
Proof. eexists. eexists. eexists. split; [apply pushes_reach; reflexivity|]. split; [reflexivity|]. split; [vm_compute; reflexivity|]. vm_compute. reflexivity. Qed.
(** What is no scalar value cannot be read back *)
Theorem C92_surrogate_refuted : exists s text, reach s [(mk_code 65 1, [55296])] /\ write_map (fun rs => rs) s = Ok text /\ create_from_object text = Err EInvalidEncoding.
Proof. eexists. eexists. split; [apply pushes_reach; reflexivity|]. split; [vm_compute; reflexivity|]. vm_compute. reflexivity. Qed.
(** The number of a code may have more bytes than its size: it is written with all of them and read with another size *)
Theorem C92_size_refuted : exists s text m l, reach s [(mk_code 321 1, [65])] /\ write_map (fun rs => rs) s = Ok text /\ create_from_object text = Ok (EMap m l) /\ l_max (m_limits s) = 1 /\ l_max l = 2.
Proof. eexists. eexists. eexists. eexists. split; [apply pushes_reach; reflexivity|]. split; [vm_compute; reflexivity|]. split; [vm_compute; reflexivity|]. split; reflexivity. Qed.
Print Assumptions C92_identity_refuted.
Print Assumptions C92_surrogate_refuted.
Print Assumptions C92_size_refuted.

(** ** C93 *)
(** The sizes read are the smallest and the largest of the codes in the text. Partial: not for CIDs *)
Theorem C93_sizes_partial cs b parts news : Forall both_codes cs -> blank b -> Forall2 (part_means range_means) parts news -> Forall part_one parts -> text_codes cs parts <> [] ->
  exists m l, parse_cmap (cmap_text cs b parts) = Ok (m, l) /\ (forall c, In c (text_codes cs parts) -> cl_min l <= c_size c <= cl_max l) /\
  (exists c, In c (text_codes cs parts) /\ c_size c = cl_min l) /\ exists c, In c (text_codes cs parts) /\ c_size c = cl_max l.
Proof. exact (sizes_read cs b parts news). Qed.
Print Assumptions C93_sizes_partial.
Example C93_case : exists m l, parse_cmap (unicode_cmap (bs "<0000> <FFFF>") (bs "1 beginbfchar <20> <0020> endbfchar")) = Ok (m, l) /\ cl_min l = 1 /\ cl_max l = 2.
Proof. eexists. eexists. split; [vm_compute; reflexivity|]. split; reflexivity. Qed.
(** A CID counts as a code: its bytes make the codes of two bytes look like codes of one byte, and <0041> is taken for the code <00> *)
Theorem C93_cid_refuted : exists m l, create_from_object (unicode_cmap (bs "<0000> <FFFF>") (bs "2 begincidchar <0000> 7 <0041> 66 endcidchar")) = Ok (EMap m l) /\ m_map m = [(mk_code 0 2, [7]); (mk_code 65 2, [66])] /\
  l_min l = 1 /\ next_points (code_points m) l [0; 65] 0 1 = Some ([7], [65]) /\ next_points (code_points m) (m_limits m) [0; 65] 0 1 = Some ([66], []).
Proof. eexists. eexists. split; [vm_compute; reflexivity|]. split; [reflexivity|]. split; [reflexivity|]. split; vm_compute; reflexivity. Qed.
Print Assumptions C93_cid_refuted.
