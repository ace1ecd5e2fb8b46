(** Extraction of text: C130, C131, C132 and C133. *)
From Coq Require Import String QArith Qabs.
From Verif Require Import Base TokModel RectModel OpTables ContentsModel ExtractModel ExtractSpec ExtractProofs ExtractSimProofs ExtractGroupProofs ExtractTrimProofs ExtractWordProofs ExtractPropLemmas ExtractFilterProofs.
Local Open Scope Z_scope.

(** ** A document with one font, whose codes are their characters, of half a unit; a space is a quarter *)
Definition face : font := mk_font (map (fun c => ([c], 1 # 2))) (1 # 4).
Definition ligatures : font := mk_font (map (fun c => (if c =? 1 then bs "fi" else if c =? 2 then [] else if c =? 3 then bs "a b" else [c], 1 # 2))) (1 # 4).
Definition room : env :=
  mk_env (fun cv n => if beq n (bs "F") then Some (Some face) else if beq n (bs "L") then Some (Some ligatures) else if beq n (bs "Own") && (cv =? 5) then Some (Some face) else None)
         (fun s => s) (fun x y => Qabs x + Qabs y)%Q (fun _ _ _ => false).
Definition no_spaces (f : font) (s : list Z) : list bool := map (fun c => c =? 32) s.
Definition cmd (n : list Z) (l : list obj) : content := mk_ct COperator 0 (rev l) (match op_of_name n with Some k => k | None => 0 end) n [] [] None None.
Definition do_form (f : Z) : content := mk_ct CDoXObject 0 [] 0 [] [] [] None (Some (f, XForm)).
Definition end_form : content := mk_ct CEndForm 0 [] 0 [] [] [] None None.
Definition nm (s : list Z) : obj := OName s.
Definition tx (s : list Z) : obj := OStr false s.
Definition plain_options (trim words : bool) : options := mk_op false trim words false false false false.
Definition whole_page (o : options) : args := mk_args [] o None None.
Definition show_text (s : list Z) : content := cmd (bs "Tj") [tx s].
Definition td (x y : Z) : content := cmd (bs "Td") [ONum x; ONum y].
Definition begin_text (f : list Z) (size : Z) : list content := [cmd (bs "BT") []; cmd (bs "Tf") [nm f; ONum size]].
Definition summary (r : res (list entry)) : option (list (list Z * Q * Q)) := match r with Ok l => Some (map (fun x => (en_text x, Qred (en_x x), Qred (en_y x))) l) | _ => None end.
Lemma cmd_spells n l o : spelling l n o -> match op_of_name n with Some _ => true | None => false end = true -> spells (cmd n l) o.
Proof. intros S K. split; [reflexivity|]. split; [reflexivity|]. exists l, n. split; [exact S|]. split; [reflexivity|]. cbn [cmd ct_op]. destruct (op_of_name n); [reflexivity|discriminate]. Qed.
Ltac spell := repeat first [apply SpNil | apply SpOp; [apply cmd_spells; [|vm_compute; reflexivity]|] | apply (SLead _ _ (NInt _)) | apply SBegin | apply SEnd | apply (SFont _ _ _ (NInt _)) | apply SShow | apply SNextShow
  | apply (SMove _ _ _ _ (NInt _) (NInt _)) | apply (SScale _ _ (NInt _)) | apply (SRise _ _ (NInt _)) | apply (SWord _ _ (NInt _)) | apply SNextLine | apply (SSpaceShow _ _ _ _ _ _ (NInt _) (NInt _))
  | apply (STm _ _ (Num6 _ _ _ _ _ _ _ _ _ _ _ _ (NInt _) (NInt _) (NInt _) (NInt _) (NInt _) (NInt _))) | apply (SConcat _ _ (Num6 _ _ _ _ _ _ _ _ _ _ _ _ (NInt _) (NInt _) (NInt _) (NInt _) (NInt _) (NInt _)))].
Definition num (z : Z) : Q := inject_Z z.
Definition sample : list content :=
  begin_text (bs "F") 10 ++ [td 100 700; show_text (bs "ab"); td 12 0; show_text (bs "c"); td 10 0; show_text (bs "d"); td 100 0; show_text (bs " e f"); td 0 (-20); show_text (bs " "); td 0 (-20); show_text (bs "g"); cmd (bs "ET") []].
Definition sample_items : list item :=
  map Op [Begin; Font (bs "F") (num 10); Move (num 100) (num 700); Show (bs "ab"); Move (num 12) (num 0); Show (bs "c"); Move (num 10) (num 0); Show (bs "d"); Move (num 100) (num 0); Show (bs " e f"); Move (num 0) (num (-20));
    Show (bs " "); Move (num 0) (num (-20)); Show (bs "g"); End].
Example sample_spelled : spelled sample sample_items.
Proof. unfold sample, sample_items, begin_text, td, show_text. cbn [map app]. spell. Qed.

(** ** C130: the text of a page *)

(** Whatever the page does, and with white space kept, trimmed or between words, no character that is not white space is lost, added or moved *)
Theorem C130_text_partial : forall e a spaces l t pg w, spelled l t -> page_shows (fonts e) spaces pg t = Some w ->
  a_pattern a = [] -> a_clip a = None -> o_sub (a_opts a) = false -> (o_words (a_opts a) = true -> o_trim (a_opts a) = true) ->
  (o_words (a_opts a) = true -> Forall (fun s => Forall one_kind (sh_codes s)) w) ->
  exists en b, extract e a pg l = Ok en /\ bare (concat (map en_text en)) b /\ bare (concat (map sh_text w)) b.
Proof. exact text_kept. Qed.
Print Assumptions C130_text_partial.
Example C130_text_case : (match page_shows (fonts room) no_spaces 1 sample_items with Some w => concat (map sh_text w) | None => [] end) = bs "abcd e f g" /\
  map (fun m => match extract room (whole_page m) 1 sample with Ok l => map en_text l | _ => [] end) [plain_options false false; plain_options true false; plain_options true true] =
  [[bs "abc d"; bs " e f"; bs " "; bs "g"]; [bs "abc d"; bs "e f"; bs "g"]; [bs "abc"; bs "d"; bs "e"; bs "f"; bs "g"]].
Proof. vm_compute. auto. Qed.
(** Words: a code whose text has white space inside makes the behaviour undefined *)
Theorem C130_code_refuted : exists l t w, spelled l t /\ page_shows (fonts room) no_spaces 1 t = Some w /\ extract room (whole_page (plain_options true true)) 1 l = UB.
Proof.
  exists (begin_text (bs "L") 10 ++ [show_text [3]]), (map Op [Begin; Font (bs "L") (num 10); Show [3]]). eexists. split; [unfold begin_text, show_text; cbn [map app]; spell|].
  split; [vm_compute; reflexivity|vm_compute; reflexivity].
Qed.
Print Assumptions C130_code_refuted.
(** An unexpected keyword, and a restored state that has not been saved, are errors *)
Theorem C130_keyword_refuted : forall e a pg l c, List.In c l -> ct_type c = CUnexpected -> forall r, extract e a pg l <> Ok r.
Proof.
  intros e a pg l c IN CU r. unfold extract. destruct (_ && _); [discriminate|]. assert (H : forall x y, on_contents e a x l <> Ok y).
  { induction l as [|d l IH]; [destruct IN|]. intros x y. cbn [on_contents]. destruct IN as [->|IN].
    - unfold on_content. rewrite CU. discriminate.
    - destruct (on_content e a x d) as [z| | |]; cbn [bind]; try discriminate. apply (IH IN). }
  destruct (on_contents e a (new_context pg) l) as [y| | |] eqn:O; cbn [bind]; try discriminate. destruct (H _ _ O).
Qed.
Print Assumptions C130_keyword_refuted.
Example C130_keyword_case : extract room (whole_page (plain_options true true)) 1 (sample ++ [mk_ct CUnexpected 0 [] 0 (bs "foo") [] [] None None]) = Err EInternalLogic /\
  extract room (whole_page (plain_options true true)) 1 (sample ++ [cmd (bs "Q") []]) = Err EInternalLogic.
Proof. vm_compute. auto. Qed.
(** A form that is in itself is begun and not ended, so the fonts of the page are looked for in the form *)
Theorem C130_recursive_refuted : exists l, (forall c, List.In c l -> ct_type c = COperator \/ c = do_form 9) /\
  extract room (whole_page (plain_options true false)) 5 l = Ok [] /\
  exists r, extract room (whole_page (plain_options true false)) 5 (filter (fun c => match ct_type c with CDoXObject => false | _ => true end) l) = Ok r /\ map en_text r = [bs "a"].
Proof.
  exists (do_form 9 :: begin_text (bs "Own") 10 ++ [cmd (bs "Tj") [OStr true (bs "a")]; cmd (bs "ET") []]). split; [|split; [vm_compute; reflexivity|]].
  - intros c IN. cbn [begin_text app List.In] in IN. decompose [or] IN; subst; auto. contradiction.
  - eexists. split; vm_compute; reflexivity.
Qed.
Print Assumptions C130_recursive_refuted.

(** ** C131: the lines of a page *)

(** With white space kept: the entries are the lines of the strings that are shown, with their places *)
Theorem C131_lines_partial : forall e a even spaces l t pg w, spelled l t -> Forall plain_item t ->
  (even = true -> Forall even_item t /\ forall x y, (y == 0)%Q -> (e_len e x y == Qabs x)%Q) ->
  page_shows (fonts e) spaces pg t = Some w -> Forall textual w -> a_pattern a = [] -> a_clip a = None -> o_sub (a_opts a) = false ->
  o_words (a_opts a) = false -> o_trim (a_opts a) = false ->
  exists r en, laid even false (filter has_text w) r /\ extract e a pg l = Ok en /\
    Forall2 (fun rr x => en_text x = snd rr /\ stands (if o_raw (a_opts a) then None else a_rotation a) (en_x x) (en_y x) (fst rr)) r en.
Proof.
  intros e a even spaces l t pg w SP PL EV PS TX PA CL OS OW OT. apply (kept_lines e a even spaces l t pg w SP PL EV PS TX PA CL OS); try assumption; intro; congruence.
Qed.
Print Assumptions C131_lines_partial.
(** Trimmed: lines of white space only are left out; an entry whose line does not begin with white space is where the line is *)
Theorem C131_trimmed_partial : forall e a even spaces l t pg w, spelled l t -> Forall plain_item t ->
  (even = true -> Forall even_item t /\ forall x y, (y == 0)%Q -> (e_len e x y == Qabs x)%Q) ->
  page_shows (fonts e) spaces pg t = Some w -> Forall textual w -> a_pattern a = [] -> a_clip a = None -> o_sub (a_opts a) = false ->
  o_words (a_opts a) = false -> o_trim (a_opts a) = true ->
  exists r ens, laid even false (filter has_text w) r /\ extract e a pg l = Ok (concat ens) /\
    Forall2 (fun rr en => Forall blank (snd rr) /\ en = [] \/
      exists x, en = [x] /\ stripped (snd rr) (en_text x) /\ en_text x <> [] /\
        ((exists z u, sh_text (fst rr) = z :: u /\ ~ blank z) -> stands (if o_raw (a_opts a) then None else a_rotation a) (en_x x) (en_y x) (fst rr))) r ens.
Proof.
  intros e a even spaces l t pg w SP PL EV PS TX PA CL OS OW OT. apply (trimmed_lines e a even spaces l t pg w SP PL EV PS TX PA CL OS); try assumption; intro; congruence.
Qed.
Print Assumptions C131_trimmed_partial.
Example C131_case : Forall plain_item sample_items /\ Forall even_item sample_items /\
  summary (extract room (whole_page (plain_options false false)) 1 sample) =
    Some [(bs "abc d", num 100, num 700); (bs " e f", num 222, num 700); (bs " ", num 222, num 680); (bs "g", num 222, num 660)] /\
  summary (extract room (mk_args [] (plain_options true false) None (Some (mk_matrix 0 1 (-1) 0 800 0))) 1 sample) =
    Some [(bs "abc d", num 100, num 100); (bs "e f", num 100, num 227); (bs "g", num 140, num 222)].
Proof. split; [|split; [|split; vm_compute; reflexivity]]; unfold sample_items; cbn [map]; repeat constructor. Qed.

(** Witnesses: the places of the strings, and the entries *)
Definition places (w : option (list shown)) : option (list (list Z * Q * Q)) := option_map (map (fun s => (sh_text s, Qred (sh_x s), Qred (sh_y s)))) w.
Definition misplaced (l : list content) (w : list (list Z * Q * Q)) (en : list (list Z * Q * Q)) : Prop :=
  exists t, spelled l t /\ places (page_shows (fonts room) no_spaces 1 t) = Some w /\ summary (extract room (whole_page (plain_options false false)) 1 l) = Some en.
Ltac witness := split; [unfold begin_text, show_text, td; cbn [map app]; spell|split; vm_compute; reflexivity].
(** The operators of the quotes show their string before they go to the next line *)
Theorem C131_quotes_refuted :
  misplaced (begin_text (bs "F") 10 ++ [cmd (bs "TL") [ONum 12]; td 100 700; cmd (bs "'") [tx (bs "a")]]) [(bs "a", num 100, num 688)] [(bs "a", num 100, num 700)] /\
  misplaced (begin_text (bs "F") 10 ++ [cmd (bs "TL") [ONum 12]; td 100 700; cmd [34] [ONum 0; ONum 0; tx (bs "a")]]) [(bs "a", num 100, num 688)] [(bs "a", num 100, num 700)].
Proof.
  split; [exists (map Op [Begin; Font (bs "F") (num 10); Lead (num 12); Move (num 100) (num 700); NextShow (bs "a")])
         |exists (map Op [Begin; Font (bs "F") (num 10); Lead (num 12); Move (num 100) (num 700); SpaceShow (num 0) (num 0) (bs "a")])]; witness.
Qed.
Print Assumptions C131_quotes_refuted.
(** Horizontal scaling, rise and word spacing are ignored *)
Theorem C131_parameters_refuted :
  misplaced (begin_text (bs "F") 10 ++ [cmd (bs "Ts") [ONum 5]; show_text (bs "a")]) [(bs "a", 0%Q, num 5)] [(bs "a", 0%Q, 0%Q)] /\
  misplaced (begin_text (bs "F") 10 ++ [cmd (bs "Tz") [ONum 200]; show_text (bs "aaaa"); show_text (bs "b"); td 0 (-20); show_text (bs "c")])
    [(bs "aaaa", 0%Q, 0%Q); (bs "b", num 40, 0%Q); (bs "c", 0%Q, num (-20))] [(bs "aaaab", 0%Q, 0%Q); (bs "c", 0%Q, num (-20))] /\
  misplaced (begin_text (bs "F") 10 ++ [cmd (bs "Tw") [ONum 30]; show_text (bs " "); cmd (bs "Ts") [ONum 0]; show_text (bs "b")])
    [(bs " ", 0%Q, 0%Q); (bs "b", num 35, 0%Q)] [(bs " b", 0%Q, 0%Q)].
Proof.
  split; [exists (map Op [Begin; Font (bs "F") (num 10); Rise (num 5); Show (bs "a")])|split;
    [exists (map Op [Begin; Font (bs "F") (num 10); Scale (num 200); Show (bs "aaaa"); Show (bs "b"); Move (num 0) (num (-20)); Show (bs "c")])
    |exists (map Op [Begin; Font (bs "F") (num 10); WordSp (num 30); Show (bs " "); Rise (num 0); Show (bs "b")])]]; witness.
Qed.
Print Assumptions C131_parameters_refuted.
(** The matrix of a form is ignored *)
Theorem C131_form_refuted :
  misplaced (do_form 7 :: begin_text (bs "F") 10 ++ [show_text (bs "a"); cmd (bs "ET") []] ++ [end_form]) [(bs "a", num 50, num 60)] [(bs "a", 0%Q, 0%Q)].
Proof.
  exists [Form 7 (mk_matrix 1 0 0 1 (num 50) (num 60)) (map Op [Begin; Font (bs "F") (num 10); Show (bs "a"); End])]. split; [|split; vm_compute; reflexivity].
  apply (SpForm _ 7 _ (begin_text (bs "F") 10 ++ [show_text (bs "a"); cmd (bs "ET") []]) _ end_form [] []); try reflexivity; [|constructor]. unfold begin_text, show_text. cbn [map app]. spell.
Qed.
Print Assumptions C131_form_refuted.
(** The next line of slanted text is below the line and not along the slant *)
Theorem C131_slant_refuted :
  misplaced (begin_text (bs "F") 10 ++ [cmd (bs "TL") [ONum 10]; cmd (bs "Tm") [ONum 1; ONum 0; ONum 1; ONum 1; ONum 0; ONum 0]; cmd (bs "T*") []; show_text (bs "a")]) [(bs "a", num (-10), num (-10))] [(bs "a", 0%Q, num (-10))].
Proof. exists (map Op [Begin; Font (bs "F") (num 10); Lead (num 10); SetTm (mk_matrix (num 1) (num 0) (num 1) (num 1) (num 0) (num 0)); NextLine; Show (bs "a")]). witness. Qed.
Print Assumptions C131_slant_refuted.
(** A string whose codes have no text does not move what follows *)
Theorem C131_textless_refuted :
  misplaced (begin_text (bs "L") 10 ++ [show_text [2]; show_text (bs "a")]) [([], 0%Q, 0%Q); (bs "a", num 5, 0%Q)] [(bs "a", 0%Q, 0%Q)].
Proof. exists (map Op [Begin; Font (bs "L") (num 10); Show [2]; Show (bs "a")]). witness. Qed.
Print Assumptions C131_textless_refuted.
(** On a page that is ten times as large a gap of two fifths of a space is a space; before a string that has white space anywhere a gap of two spaces is none *)
Theorem C131_gaps_refuted :
  misplaced ([cmd (bs "cm") [ONum 10; ONum 0; ONum 0; ONum 10; ONum 0; ONum 0]] ++ begin_text (bs "F") 10 ++ [show_text (bs "a"); td 6 0; show_text (bs "b")])
    [(bs "a", 0%Q, 0%Q); (bs "b", num 60, 0%Q)] [(bs "a b", 0%Q, 0%Q)] /\
  misplaced (begin_text (bs "F") 10 ++ [show_text (bs "foo"); td 20 0; show_text (bs "bar baz")]) [(bs "foo", 0%Q, 0%Q); (bs "bar baz", num 20, 0%Q)] [(bs "foobar baz", 0%Q, 0%Q)].
Proof.
  split; [exists (map Op [Concat (mk_matrix (num 10) (num 0) (num 0) (num 10) (num 0) (num 0)); Begin; Font (bs "F") (num 10); Show (bs "a"); Move (num 6) (num 0); Show (bs "b")])
         |exists (map Op [Begin; Font (bs "F") (num 10); Show (bs "foo"); Move (num 20) (num 0); Show (bs "bar baz")])]; witness.
Qed.
Print Assumptions C131_gaps_refuted.
(** On a page that is twice as large, a line without the white space before it is moved twice as far *)
Theorem C131_trimmed_refuted : exists l t w, spelled l t /\ Forall plain_item t /\ page_shows (fonts room) no_spaces 1 t = Some [w] /\ sh_text w = bs " a" /\ (sh_x w == 0 /\ sh_ex w == 20)%Q /\
  summary (extract room (whole_page (plain_options true false)) 1 l) = Some [(bs "a", num 20, 0%Q)].
Proof.
  exists ([cmd (bs "cm") [ONum 2; ONum 0; ONum 0; ONum 2; ONum 0; ONum 0]] ++ begin_text (bs "F") 10 ++ [show_text (bs " a")]),
    (map Op [Concat (mk_matrix (num 2) (num 0) (num 0) (num 2) (num 0) (num 0)); Begin; Font (bs "F") (num 10); Show (bs " a")]). eexists.
  split; [unfold begin_text, show_text; cbn [map app]; spell|]. split; [cbn [map]; repeat constructor|]. split; [vm_compute; reflexivity|]. split; [vm_compute; reflexivity|]. split; [split; vm_compute; reflexivity|vm_compute; reflexivity].
Qed.
Print Assumptions C131_trimmed_refuted.

(** ** C132: the words of a page *)
Theorem C132_words_partial : forall e a even spaces l t pg w, spelled l t -> Forall plain_item t ->
  (even = true -> Forall even_item t /\ forall x y, (y == 0)%Q -> (e_len e x y == Qabs x)%Q) ->
  page_shows (fonts e) spaces pg t = Some w -> Forall textual w -> a_pattern a = [] -> a_clip a = None -> o_sub (a_opts a) = false ->
  o_words (a_opts a) = true -> o_trim (a_opts a) = true -> Forall (fun s => Forall one_kind (sh_codes s)) w ->
  exists r ens, laid even true (filter has_text w) r /\ extract e a pg l = Ok (concat ens) /\ Forall2 (fun rr en => words (snd rr) (map en_text en)) r ens.
Proof.
  intros e a even spaces l t pg w SP PL EV PS TX PA CL OS OW OT OK. apply (word_lines e a even spaces l t pg w SP PL EV PS TX PA CL OS); auto.
Qed.
Print Assumptions C132_words_partial.
Example C132_words_case : summary (extract room (whole_page (plain_options true true)) 1 sample) =
  Some [(bs "abc", num 100, num 700); (bs "d", num 122, num 700); (bs "e", num 227, num 700); (bs "f", num 237, num 700); (bs "g", num 222, num 660)].
Proof. vm_compute. reflexivity. Qed.
(** There is one way only to take a text apart into words *)
Theorem C132_one_way : forall t l1, words t l1 -> forall l2, words t l2 -> l1 = l2.
Proof. exact words_unique. Qed.
Print Assumptions C132_one_way.
Example C132_one_way_case : words (bs " a bc") [bs "a"; bs "bc"].
Proof.
  assert (NB : forall c, 97 <= c <= 122 -> ~ blank c) by (intros c C B; unfold blank in B; lia). assert (SP : blank 32) by (unfold blank; auto).
  change (bs " a bc") with (32 :: [97] ++ 32 :: [98; 99] ++ []). apply WSkip; [exact SP|]. apply (WWord [97]); [discriminate| |right; eauto|].
  - constructor; [apply NB; lia|constructor].
  - apply WSkip; [exact SP|]. apply (WWord [98; 99] [] []); [discriminate| |auto|constructor]. constructor; [apply NB; lia|]. constructor; [apply NB; lia|constructor].
Qed.
(** The options: words are always trimmed *)
Theorem C132_options : forall flags o, options_of flags = Ok o -> (o_words o = true -> o_trim o = true) /\ (o_regex o = true -> o_sub o = false /\ o_whole o = false).
Proof.
  intros flags o H. unfold options_of in H. destruct (negb (Z.land flags 16 =? 0)) eqn:R, (negb (Z.land flags 8 =? 0)) eqn:W, (negb (Z.land flags 128 =? 0)) eqn:S, (negb (Z.land flags 4 =? 0)) eqn:T; cbn [andb orb] in H; try discriminate H;
    apply ok_inj in H; subst o; cbn [o_words o_trim o_regex o_sub o_whole]; rewrite ?orb_true_r; (split; intro; try discriminate; auto).
Qed.
Print Assumptions C132_options.
Example C132_options_case : options_of 4 = Ok (mk_op false true true false false false false) /\ options_of 24 = Err ENotImplemented.
Proof. vm_compute. auto. Qed.

(** ** C133: searches *)

(** The entries of a search are those entries of the page that have the text and are in the rectangle *)
Theorem C133_search_partial : forall e p o clip turn pg l r0, o_sub o = false -> o_regex o = false -> clip = None \/ o_raw o = true \/ turn = None ->
  extract e (mk_args [] o None turn) pg l = Ok r0 ->
  exists r, extract e (mk_args p o clip turn) pg l = Ok r /\
    picked (fun x y => y = x /\ within clip (en_x x) (en_y x) /\ wanted p (o_case o) (o_whole o) (en_text x))
           (fun x => ~ (within clip (en_x x) (en_y x) /\ wanted p (o_case o) (o_whole o) (en_text x))) r0 r.
Proof. exact search_plain. Qed.
Print Assumptions C133_search_partial.
Example C133_search_case :
  summary (extract room (mk_args (bs "B") (mk_op true true false false false false false) None None) 1 sample) = Some [(bs "abc d", num 100, num 700)] /\
  summary (extract room (mk_args [] (plain_options true true) (Some (mk_rect 200 0 100 690)) None) 1 sample) = Some [(bs "g", num 222, num 660)] /\
  summary (extract room (mk_args (bs "G") (mk_op true true true true false false false) None None) 1 sample) = Some [(bs "g", num 222, num 660)].
Proof. vm_compute. auto. Qed.
(** With a regular expression *)
Theorem C133_regex_partial : forall e p o clip turn pg l r0, o_sub o = false -> o_regex o = true -> clip = None \/ o_raw o = true \/ turn = None ->
  extract e (mk_args [] o None turn) pg l = Ok r0 ->
  exists r, extract e (mk_args p o clip turn) pg l = Ok r /\
    picked (fun x y => y = x /\ within clip (en_x x) (en_y x) /\ (p = [] \/ e_regex e (o_case o) p (en_text x) = true))
           (fun x => ~ (within clip (en_x x) (en_y x) /\ (p = [] \/ e_regex e (o_case o) p (en_text x) = true))) r0 r.
Proof. exact search_regex. Qed.
Print Assumptions C133_regex_partial.
Example C133_regex_case : let e := mk_env (e_font room) (e_plain room) (e_len room) (fun _ p t => existsb (fun c => existsb (Z.eqb c) p) t) in
  summary (extract e (mk_args (bs "fg") (mk_op false true true false true false false) None None) 1 sample) = Some [(bs "f", num 237, num 700); (bs "g", num 222, num 660)].
Proof. vm_compute. reflexivity. Qed.
(** Parts of entries: the first place of the text in each entry *)
Theorem C133_parts_partial : forall e p o clip turn pg l r0 r, o_sub o = true -> o_regex o = false -> clip = None \/ o_raw o = true \/ turn = None ->
  extract e (mk_args [] (mk_op (o_case o) (o_trim o) (o_words o) (o_whole o) false (o_raw o) false) None turn) pg l = Ok r0 ->
  extract e (mk_args p o clip turn) pg l = Ok r ->
    picked (fun x y => within clip (en_x x) (en_y x) /\
             exists n, occurs_at (o_case o) p (en_text x) n /\ (forall m, occurs_at (o_case o) p (en_text x) m -> (n <= m)%nat) /\ (o_whole o = true -> whole_at (o_case o) p (en_text x) n) /\
             en_text y = firstn (length p) (skipn n (en_text x)) /\ same_text (o_case o) (en_text y) p)
           (fun x => ~ within clip (en_x x) (en_y x) \/
             if o_whole o then forall n, whole_at (o_case o) p (en_text x) n -> exists m, (m < n)%nat /\ occurs_at (o_case o) p (en_text x) m
             else forall n, ~ occurs_at (o_case o) p (en_text x) n) r0 r.
Proof.
  intros e p o clip turn pg l r0 r OS OR CT E0 E. eapply picked_impl; [| |exact (search_part e p o clip turn pg l r0 r OS OR CT E0 E)].
  - intros x y (W & n & (F1 & F2) & WH & T & S). split; [exact W|]. exists n. auto.
  - auto.
Qed.
Print Assumptions C133_parts_partial.
Example C133_parts_case : summary (extract room (mk_args (bs "C D") (mk_op true true false false false false true) None None) 1 sample) = Some [(bs "c d", num 110, num 700)].
Proof. vm_compute. reflexivity. Qed.
(** A whole word is not found if it is a part of another word before *)
Theorem C133_whole_refuted : exists l, extract room (whole_page (plain_options true false)) 1 l <> Ok [] /\
  (forall r, extract room (whole_page (plain_options true false)) 1 l = Ok r -> Forall (fun x => whole_at false (bs "a") (en_text x) 3) r) /\
  extract room (mk_args (bs "a") (mk_op false true false true false false true) None None) 1 l = Ok [].
Proof.
  exists (begin_text (bs "F") 10 ++ [show_text (bs "ab a")]). split; [vm_compute; discriminate|]. split; [|vm_compute; reflexivity].
  intros r R. assert (T : map en_text r = [bs "ab a"]).
  { apply (f_equal (fun z => match z with Ok l => map en_text l | _ => [] end)) in R. etransitivity; [symmetry; exact R|]. vm_compute. reflexivity. }
  destruct r as [|x [|y r]]; try discriminate T. constructor; [|constructor]. cbn [map] in T. apply (f_equal (fun z => match z with t :: _ => t | [] => [] end)) in T. rewrite T.
  exists (bs "ab "), (bs "a"), []. split; [reflexivity|]. split; [reflexivity|]. split; [reflexivity|]. split; [|discriminate].
  intros q z Z. change (bs "ab ") with (bs "ab" ++ [32]) in Z. apply app_inj_tail in Z as (_ & <-). left. unfold blank. auto.
Qed.
Print Assumptions C133_whole_refuted.
(** A part of the text of the last code is undefined behaviour; the width of a part counts from the beginning of the string *)
Theorem C133_last_code_refuted : extract room (mk_args (bs "i") (mk_op false true false false false false true) None None) 1 (begin_text (bs "L") 10 ++ [show_text [97; 1]]) = UB.
Proof. vm_compute. reflexivity. Qed.
Print Assumptions C133_last_code_refuted.
Theorem C133_width_refuted : match extract room (mk_args (bs "c") (mk_op false true false false false false true) None None) 1 (begin_text (bs "F") 10 ++ [show_text (bs "abc")]) with
  | Ok l => map (fun x => (en_text x, Qred (en_x x), Qred (en_len x))) l | _ => [] end = [(bs "c", num 10, num 15)].
Proof. vm_compute. reflexivity. Qed.
Print Assumptions C133_width_refuted.
