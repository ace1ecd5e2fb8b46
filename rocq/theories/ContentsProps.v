(** Theorems on the canvas device, the operators, content streams and inline images. *)
From Coq Require Import Lia String Permutation.
From Verif Require Import Base TokModel WriteModel DictProofs TokProofs ObjSpec CMapModel CMapSpec OpTables ContentsModel ContentsSpec ContentsDevProofs ContentsTokProofs ContentsProofs ContentsEndProofs.
Local Open Scope Z_scope.

(** ** C102: the canvas device *)
(** Read character by character a page is its streams which are not empty, divided by line feeds *)
Theorem C102_chars l : cd_all l = Ok (joined (texts l)).
Proof. exact (all_joined l). Qed.
Print Assumptions C102_chars.
(** [gives d t]: the device gives exactly [t], however characters are read and looked at *)
CoInductive gives : cdev -> list Z -> Prop :=
| G : forall d t d1 d2, cd_read d = (match t with [] => None | c :: _ => Some c end, d1) -> cd_peek d = (match t with [] => None | c :: _ => Some c end, d2) ->
    gives d1 (tl t) -> gives d2 t -> gives d t.
Theorem C102_peek l : gives (cd_open l) (joined (texts l)).
Proof.
  rewrite <- open_rest. generalize (cd_open l) as d. cofix IH. intros d. destruct (read_rest d) as (d1 & R & E1). destruct (peek_rest d) as (d2 & P & E2). apply (G d _ d1 d2 R P).
  - rewrite <- E1. apply IH.
  - rewrite <- E2. apply IH.
Qed.
Print Assumptions C102_peek.
(** The first buffer that is read holds the beginning, and everything if it is large enough; then nothing is left *)
Theorem C102_buffer l size : exists d, cd_read_buffer size (cd_open l) = Ok (firstn size (joined (texts l)), d) /\
  ((length (joined (texts l)) <= size)%nat -> gives d []).
Proof.
  destruct (buffer_reads size (cd_open l)) as (d & E & R). rewrite open_rest in *. exists d. split; [exact E|]. intros L. apply R in L. clear E R. revert d L. cofix IH. intros d L.
  destruct (read_rest d) as (d1 & Q & E1). destruct (peek_rest d) as (d2 & P & E2). rewrite L in *. apply (G d [] d1 d2 Q P); [apply (IH d1 E1)|apply (IH d2 E2)].
Qed.
Print Assumptions C102_buffer.
(** A buffer with less room than the stream has loses the rest of the stream *)
Lemma rest_gives : forall d, gives d (rest_of d).
Proof.
  cofix IH. intros d. destruct (read_rest d) as (d1 & R & E1). destruct (peek_rest d) as (d2 & P & E2). apply (G d _ d1 d2 R P).
  - rewrite <- E1. apply IH.
  - rewrite <- E2. apply IH.
Qed.
Theorem C102_buffer_refuted b x l : b <> [] -> exists d, cd_read_buffer (length b) (cd_open (Some (b ++ x) :: l)) = Ok (b, d) /\
  gives d (match texts l with [] => [] | _ => 10 :: joined (texts l) end).
Proof.
  intros NB. assert (C : cd_open (Some (b ++ x) :: l) = mk_cd (b ++ x) l false false) by (destruct b; [contradiction|reflexivity]). rewrite C.
  unfold cd_read_buffer. cbn [cd_eof cd_rest]. cbn [cd_fill]. assert (Z0 : (length b =? 0)%nat = false) by (destruct b; [contradiction|reflexivity]). rewrite Z0. cbn [cd_sw andb cd_cur cd_rest].
  rewrite (firstn_app (length b)), Nat.sub_diag, firstn_all, app_nil_r, Nat.sub_diag. cbn [app].
  destruct (pop_next l) as [[b2 r]|] eqn:E; cbn [Nat.eqb].
  - apply pop_some in E as (T & _ & _). eexists. split; [reflexivity|]. rewrite T. match goal with |- gives ?d ?t => replace t with (rest_of d); [apply rest_gives|] end.
    rewrite joined_cons. reflexivity.
  - apply pop_none in E. rewrite E. eexists. split; [reflexivity|]. match goal with |- gives ?d ?t => change t with (rest_of d) end. apply rest_gives.
Qed.
Print Assumptions C102_buffer_refuted.
Example C102_case : cd_all [Some []; Some (bs "q 1"); None; Some (bs "w"); Some []] = Ok (bs "q 1" ++ 10 :: bs "w") /\
  fst (cd_peek (mk_cd [] [Some (bs "w")] false false)) = Some 10 /\
  (do (b, d) <- cd_read_buffer 2 (cd_open [Some (bs "q 1"); Some (bs "w")]); do (c, e) <- cd_read_buffer 9 d; Ok (b ++ c)) = Ok (bs "q " ++ 10 :: bs "w").
Proof. vm_compute. repeat split. Qed.

(** ** C103: the operators *)
Theorem C103_names n : (exists op, op_of_name n = Some op) <-> In n (map fst iso_ops).
Proof.
  split; [intros (op & E); exact (op_iso n op E)|]. intros H. apply in_map_iff in H as ([m k] & <- & H). destruct (iso_op m k H) as (op & E & _). exists op. exact E.
Qed.
Print Assumptions C103_names.
Theorem C103_inverse n op : op_of_name n = Some op <-> op_name op = Some n.
Proof.
  split; [|apply op_name_of]. intros E. pose proof (op_iso n op E) as H. apply in_map_iff in H as ([m k] & <- & H). destruct (iso_op m k H) as (op2 & E2 & N2 & _). cbn [fst] in *. rewrite E in E2. injection E2 as ->. exact N2.
Qed.
Print Assumptions C103_inverse.
Theorem C103_counts n k op : In (n, k) iso_ops -> op_of_name n = Some op -> op_count op = Some (match k with Some c => c | None => -1 end).
Proof. intros H E. destruct (iso_op n k H) as (op2 & E2 & _ & C). rewrite E in E2. injection E2 as ->. exact C. Qed.
Print Assumptions C103_counts.
Example C103_case : op_of_name (bs "T*") <> None /\ op_of_name (bs "Tq") = None /\ (match op_of_name (bs "re") with Some op => op_count op | None => None end) = Some 4 /\ length iso_ops = 73%nat.
Proof. vm_compute. repeat split. discriminate. Qed.

(** ** C104: contents *)
(** Whatever way a program is spelt, over however many streams, reading the page shows the program: operands, operators, images, and the
    forms, each as far as it is not already being read *)
Theorem C104_page w nofollow canvas obj streams is out fuel : program_text is (joined (texts streams)) -> shows w nofollow (Some canvas) [obj] is out -> (length out < fuel)%nat ->
  (do r <- open_canvas canvas obj streams; read_all fuel w (mk_ra false nofollow None) r new_content) = Ok out.
Proof. intros T H F. unfold open_canvas. rewrite all_joined. cbn [bind]. exact (reads_program w nofollow (Some (canvas, obj)) is _ out T H fuel F). Qed.
Print Assumptions C104_page.
Theorem C104_device w nofollow is text out fuel : program_text is text -> shows w nofollow None [] is out -> (length out < fuel)%nat ->
  read_all fuel w (mk_ra false nofollow None) (open_device text) new_content = Ok out.
Proof. intros T H F. exact (reads_program w nofollow None is text out T H fuel F). Qed.
Print Assumptions C104_device.
(** With ThrowOnWarnings reading fails at the first content, whether there are warnings or not *)
Theorem C104_throw_refuted w nofollow canvas obj streams fuel c l :
  (do r <- open_canvas canvas obj streams; read_all (S fuel) w (mk_ra false nofollow None) r new_content) = Ok (c :: l) ->
  (do r <- open_canvas canvas obj streams; read_all (S fuel) w (mk_ra true nofollow None) r new_content) = Err EInvalidContentStream.
Proof.
  unfold open_canvas. rewrite all_joined. cbn [bind]. cbn [read_all]. unfold try_read_next. cbn [rd_inputs rd_img]. unfold read_content.
  change (next_content w (mk_ra true nofollow None)) with (next_content w (mk_ra false nofollow None)). destruct (next_content w (mk_ra false nofollow None) _ _) as [[[ok r1] c1]| | |] eqn:E; cbn [bind]; try discriminate.
  destruct ok; [reflexivity|]. assert (L : exists i, rd_inputs r1 = [i]).
  { unfold next_content in E. cbn [rd_inputs rd_q rd_img in_canvas in_dev] in E. apply ChainProofs.bind_ok in E as ([st t] & _ & E). destruct t as [[[t|o|] s]|]; try discriminate.
    - destruct (op_of_name t) as [op|]; [|discriminate]. apply ChainProofs.bind_ok in E as (c2 & _ & E). destruct (op =? op_Do).
      + apply ChainProofs.bind_ok in E as ([l2 c3] & _ & E). discriminate.
      + destruct (op =? op_BI); [|discriminate]. apply ChainProofs.bind_ok in E as ([[c3 ok] s2] & _ & E). injection E as -> <- _. eexists. reflexivity.
    - injection E as <- _. eexists. reflexivity. }
  destruct L as [i L]. unfold pop_device. rewrite L. cbn [end_of_all bind]. discriminate.
Qed.
Print Assumptions C104_throw_refuted.
Definition case_world : world :=
  mk_world (fun c n => if beq n (bs "F") then Some (7, XForm) else if beq n (bs "I") then Some (8, XImage) else None) (fun x => [Some (bs "/F Do 1"); Some (bs "w")]).
(** A page with a width, a form which draws itself, an unknown operator and an image. The streams are divided inside the program *)
Definition case_streams : list (option (list Z)) := [Some (bs "1 w /F"); None; Some (bs "Do [ 2 (x) ]Tj foo BI /W 1 ID E"); Some (bs "a EI Q ")].
Definition case_program : list instr :=
  [IOp [ONum 1] (bs "w"); IOp [OName (bs "F")] (bs "Do"); IOp [OArr [ONum 2; OStr false (bs "x")]] (bs "Tj"); IOp [] (bs "foo");
   IImage [(bs "W", ONum 1)] (69 :: 10 :: bs "a "); IOp [] (bs "Q")].
Definition case_form : list instr := [IOp [OName (bs "F")] (bs "Do"); IOp [ONum 1] (bs "w")].
Definition case_out : list content :=
  [shown COperator 0 [ONum 1] 1 (bs "w"); do_shown 0 (bs "F") 7 XForm;
   do_shown w_recursive (bs "F") 7 XForm; shown COperator 0 [ONum 1] 1 (bs "w"); shown CEndForm 0 [] 0 [];
   shown COperator 0 [OArr [ONum 2; OStr false (bs "x")]] 44 (bs "Tj"); shown CUnexpected 0 [] 0 (bs "foo");
   mk_ct CImageDict 0 [] 0 [] [(bs "W", ONum 1)] [] None None; mk_ct CImageData 0 [] 0 [] [] (69 :: 10 :: bs "a ") None None; shown COperator 0 [] 10 (bs "Q")].
Lemma room (n : nat) : (n <= 9)%nat -> (n <= Z.to_nat 4095)%nat.
Proof. intros H. lia. Qed.
Lemma num_text z t k : int64_ok z = true -> dec_signed z = t -> stops k -> value_text (ONum z) t k.
Proof. intros R D S. exists (mk_wf true true). split; [left; reflexivity|]. split; [cbn [write lead wnoinline app]; rewrite D; reflexivity|]. split; [exact R|]. split; [cbn [inner]; lia|intros _; exact S]. Qed.
Lemma name_text n t k : forallb (fun c => (0 <? c) && (c <? 256)) n = true -> escape_name n = Ok t -> (length t <= 9)%nat -> stops k -> value_text (OName n) (47 :: t) k.
Proof.
  intros R E L S. assert (R' : Forall (fun c => 0 < c < 256) n) by (apply Forall_forall; intros c I; apply (proj1 (forallb_forall _ _) R) in I; lia). clear R. rename R' into R. exists (mk_wf true true). split; [left; reflexivity|]. split; [cbn [write]; unfold write_name; rewrite E; reflexivity|]. split; [|split; [cbn [inner]; lia|intros _; exact S]].
  split; [|split]; [unfold bytes_ok; revert R; apply Forall_impl; intros c H; unfold is_byte in *; cbn beta in *; lia|intros I; apply (proj1 (Forall_forall _ _) R) in I; lia|intros t' E'; rewrite E in E'; injection E' as <-; apply room; exact L].
Qed.
Lemma word_ok n : forallb is_regular n = true -> (length n <= 9)%nat -> existsb (beq n) [bs "null"; bs "true"; bs "false"] = false ->
  match n with [] => False | c :: _ => existsb (Z.eqb c) (bs "+-.0123456789") = false end -> word n.
Proof.
  intros R L X D. split; [apply Forall_forall; apply forallb_forall; exact R|]. split; [apply room; exact L|]. split.
  - intros I. assert (B : existsb (beq n) [bs "null"; bs "true"; bs "false"] = true) by (apply existsb_exists; exists n; split; [exact I|apply beq_refl]). congruence.
  - destruct n as [|c r]; [exact D|]. intros I. assert (B : existsb (Z.eqb c) (bs "+-.0123456789") = true) by (apply existsb_exists; exists c; split; [exact I|apply Z.eqb_refl]). congruence.
Qed.
Ltac stop := first [exact Logic.I|left; reflexivity|right; split; [reflexivity|split; [discriminate|discriminate]]].
Ltac wrd sp := exists sp; split; [reflexivity|]; split; [repeat constructor|]; split; [apply word_ok; [reflexivity|cbn; lia|reflexivity|reflexivity]|stop].
Ltac num := apply num_text; [reflexivity|reflexivity|stop].
Ltac nam := apply name_text; [reflexivity|reflexivity|cbn; lia|stop].
Lemma case_form_text : program_text case_form (joined (texts (w_text case_world 7))).
Proof.
  apply (pt_op [OName (bs "F")] (bs "Do") _ (bs " Do 1" ++ 10 :: bs "w") (bs " 1" ++ 10 :: bs "w")).
  - apply (vt_cons [] (OName (bs "F")) (bs "/F") (bs " Do 1" ++ 10 :: bs "w") []); [repeat constructor|nam|apply vt_nil].
  - wrd [32].
  - discriminate.
  - apply (pt_op [ONum 1] (bs "w") _ (10 :: bs "w") []).
    + apply (vt_cons [32] (ONum 1) (bs "1") (10 :: bs "w") []); [repeat constructor|num|apply vt_nil].
    + wrd [10].
    + discriminate.
    + apply (pt_end []). constructor.
Qed.
Lemma array_text k : value_text (OArr [ONum 2; OStr false (bs "x")]) (bs "[ 2 (x) ]") k.
Proof.
  exists (mk_wf true true). split; [left; reflexivity|]. split; [reflexivity|]. split; [|split; [cbn [inner]; lia|intros []]].
  split; [reflexivity|]. split; [|exact Logic.I]. cbn [wf_obj]. apply bytes_okb_iff. reflexivity.
Qed.
(** Whether EI and white space are in the data *)
Fixpoint endb (d : list Z) : bool := match d with [] => false | c :: r => (match c, r with 69, 73 :: w :: _ => is_ws w | _, _ => false end) || endb r end.
Lemma endb_no d : endb d = false -> no_end d.
Proof.
  intros H a. revert d H. induction a as [|x a IH]; intros d H w b W ->.
  - cbn [app endb] in H. rewrite W in H. discriminate.
  - change ((x :: a) ++ 69 :: 73 :: w :: b) with (x :: (a ++ 69 :: 73 :: w :: b)) in H. cbn [endb] in H. apply orb_false_iff in H as [_ H]. exact (IH _ H w b W eq_refl).
Qed.
Lemma free_ends d x y : ~ (y = 69) -> ~ (x = 69 /\ y = 73) -> ends_free (d ++ [x; y]).
Proof.
  intros A B. split; intros a E; apply (f_equal (@rev Z)) in E; rewrite !rev_app_distr in E; cbn [rev app] in E; injection E; intros; subst; [contradiction|destruct B; split; reflexivity].
Qed.
Lemma case_text : program_text case_program (joined (texts case_streams)).
Proof.
  apply (pt_op [ONum 1] (bs "w") _ (bs " w /F" ++ 10 :: bs "Do [ 2 (x) ]Tj foo BI /W 1 ID E" ++ 10 :: bs "a EI Q ") (bs " /F" ++ 10 :: bs "Do [ 2 (x) ]Tj foo BI /W 1 ID E" ++ 10 :: bs "a EI Q ")).
  { apply (vt_cons [] (ONum 1) (bs "1") (bs " w /F" ++ 10 :: bs "Do [ 2 (x) ]Tj foo BI /W 1 ID E" ++ 10 :: bs "a EI Q ") []); [repeat constructor|num|apply vt_nil]. }
  { wrd [32]. }
  { discriminate. }
  apply (pt_op [OName (bs "F")] (bs "Do") _ (10 :: bs "Do [ 2 (x) ]Tj foo BI /W 1 ID E" ++ 10 :: bs "a EI Q ") (bs " [ 2 (x) ]Tj foo BI /W 1 ID E" ++ 10 :: bs "a EI Q ")).
  { apply (vt_cons [32] (OName (bs "F")) (bs "/F") (10 :: bs "Do [ 2 (x) ]Tj foo BI /W 1 ID E" ++ 10 :: bs "a EI Q ") []); [repeat constructor|nam|apply vt_nil]. }
  { wrd [10]. }
  { discriminate. }
  apply (pt_op [OArr [ONum 2; OStr false (bs "x")]] (bs "Tj") _ (bs "Tj foo BI /W 1 ID E" ++ 10 :: bs "a EI Q ") (bs " foo BI /W 1 ID E" ++ 10 :: bs "a EI Q ")).
  { apply (vt_cons [32] (OArr [ONum 2; OStr false (bs "x")]) (bs "[ 2 (x) ]") (bs "Tj foo BI /W 1 ID E" ++ 10 :: bs "a EI Q ") []); [repeat constructor|apply array_text|apply vt_nil]. }
  { wrd (@nil Z). }
  { discriminate. }
  apply (pt_op [] (bs "foo") _ (bs " foo BI /W 1 ID E" ++ 10 :: bs "a EI Q ") (bs " BI /W 1 ID E" ++ 10 :: bs "a EI Q ")).
  { constructor. }
  { wrd [32]. }
  { discriminate. }
  apply (pt_image [(bs "W", ONum 1)] [(bs "W", ONum 1)] (69 :: 10 :: bs "a ") _ (bs " /W 1 ID E" ++ 10 :: bs "a EI Q ") (bs " ID E" ++ 10 :: bs "a EI Q ") 32 32 (bs "Q ")).
  { wrd [32]. }
  { repeat constructor. }
  { apply Permutation_refl. }
  { apply (vt_cons [32] (OName (bs "W")) (bs "/W") (bs " 1 ID E" ++ 10 :: bs "a EI Q ") [ONum 1]); [repeat constructor|nam|]. apply (vt_cons [32] (ONum 1) (bs "1") (bs " ID E" ++ 10 :: bs "a EI Q ") []); [repeat constructor|num|apply vt_nil]. }
  { wrd [32]. }
  { reflexivity. }
  { reflexivity. }
  { apply endb_no. reflexivity. }
  { apply (free_ends [69; 10] 97 32); lia. }
  apply (pt_op [] (bs "Q") _ (bs "Q ") (bs " ")).
  { constructor. }
  { wrd (@nil Z). }
  { discriminate. }
  apply (pt_end [32]). repeat constructor.
Qed.
Lemma in_op n k : existsb (fun x => beq n (fst x) && match snd x, k with Some a, Some b => a =? b | None, None => true | _, _ => false end) iso_ops = true -> In (n, k) iso_ops.
Proof.
  intros H. apply existsb_exists in H as ([m j] & I & H). cbn [fst snd] in H. apply andb_true_iff in H as [A B]. apply beq_eq in A. subst m. destruct j, k; try discriminate; [apply Z.eqb_eq in B; subst|]; exact I.
Qed.
Lemma not_op n : existsb (fun x => beq n (fst x)) iso_ops = false -> ~ In n (map fst iso_ops).
Proof. intros H I. apply in_map_iff in I as ([m j] & <- & I). assert (B : existsb (fun x => beq m (fst x)) iso_ops = true) by (apply existsb_exists; exists (m, j); split; [exact I|apply beq_refl]). cbn [fst] in *. congruence. Qed.
Lemma case_shows : shows case_world false (Some 3) [2] case_program case_out.
Proof.
  apply (sh_op case_world false (Some 3) [2] [ONum 1] (bs "w") (Some 1) 1); [apply in_op; reflexivity|reflexivity|discriminate|discriminate|].
  apply (sh_form case_world false 3 [2] (bs "F") 7 case_form [do_shown w_recursive (bs "F") 7 XForm; shown COperator 0 [ONum 1] 1 (bs "w")]); [reflexivity|intros [H|[]]; discriminate|discriminate|exact case_form_text| |].
  { apply sh_recursive; [reflexivity|left; reflexivity|]. apply (sh_op case_world false (Some 7) [7; 2] [ONum 1] (bs "w") (Some 1) 1); [apply in_op; reflexivity|reflexivity|discriminate|discriminate|]. apply sh_nil. }
  apply (sh_op case_world false (Some 3) [2] [OArr [ONum 2; OStr false (bs "x")]] (bs "Tj") (Some 1) 44); [apply in_op; reflexivity|reflexivity|discriminate|discriminate|].
  apply sh_unknown; [apply not_op; reflexivity|]. apply sh_image.
  apply (sh_op case_world false (Some 3) [2] [] (bs "Q") (Some 0) 10); [apply in_op; reflexivity|reflexivity|discriminate|discriminate|]. apply sh_nil.
Qed.
Example C104_case : (do r <- open_canvas 3 2 case_streams; read_all 11 case_world (mk_ra false false None) r new_content) = Ok case_out.
Proof. apply (C104_page case_world false 3 2 case_streams case_program); [exact case_text|exact case_shows|cbn; lia]. Qed.
Print Assumptions C104_case.

(** ** C105: inline images *)
(** Data without EI before white space is read, if it does not run into the EI *)
Theorem C105_data c d w k : no_end d -> ends_free d -> is_ws w = true -> read_image_data (c :: d ++ bs "EI" ++ w :: k) = Some (d, k).
Proof. exact (data_reads c d w k). Qed.
Print Assumptions C105_data.
(** What is read is followed by EI and white space *)
Theorem C105_sound b d k : read_image_data b = Some (d, k) -> exists c w, b = c :: d ++ bs "EI" ++ w :: k /\ is_ws w = true.
Proof.
  destruct b as [|c b]; [discriminate|]. intros H. apply (data_sound b WantE [] d k Logic.I) in H as (w & E & W). cbn [rev app] in E. exists c, w. split; [rewrite E; reflexivity|exact W].
Qed.
Print Assumptions C105_sound.
(** Data with EI and white space inside ends there; the rest is read as instructions *)
Theorem C105_inside_refuted c a w b w2 k : no_end a -> ends_free a -> is_ws w = true -> read_image_data (c :: (a ++ bs "EI" ++ w :: b) ++ bs "EI" ++ w2 :: k) = Some (a, b ++ bs "EI" ++ w2 :: k).
Proof. intros N F W. rewrite <- app_assoc. change ((bs "EI" ++ w :: b) ++ bs "EI" ++ w2 :: k) with (bs "EI" ++ w :: (b ++ bs "EI" ++ w2 :: k)). apply data_reads; assumption. Qed.
Print Assumptions C105_inside_refuted.
Lemma data_shift b : forall st x acc, ei_ok st x -> image_data st (x ++ acc) b = option_map (fun p => (rev acc ++ fst p, snd p)) (image_data st x b).
Proof.
  induction b as [|c b IH]; intros st x acc O; [reflexivity|]. cbn [image_data]. destruct st.
  - apply (IH _ (c :: x)). destruct (c =? 69) eqn:E; [apply Z.eqb_eq in E; subst; eexists; reflexivity|exact Logic.I].
  - apply (IH _ (c :: x)). destruct (c =? 73) eqn:E; [apply Z.eqb_eq in E; subst; destruct O as [y ->]; eexists; reflexivity|exact Logic.I].
  - destruct (is_ws c); [|apply (IH WantE (c :: x)); exact Logic.I]. destruct O as [y ->]. cbn [skipn app option_map fst snd]. rewrite rev_app_distr. reflexivity.
Qed.
Lemma data_start acc b : no_end b -> image_data WantE acc b = None.
Proof.
  intros N. change acc with ([] ++ acc). rewrite (data_shift b WantE [] acc Logic.I). destruct (image_data WantE [] b) as [[d k]|] eqn:E; [|reflexivity]. apply (data_sound b WantE [] d k Logic.I) in E as (w & E & W). exfalso. exact (N d w k W E).
Qed.
Lemma data_before d k : no_end d -> ends_free d -> image_data WantE [] (d ++ k) = image_data WantE (rev d) k.
Proof.
  intros N [F1 F2]. destruct (data_runs d WantE [] k Logic.I N) as (st & -> & O). rewrite app_nil_r in *. destruct st; [reflexivity| |].
  - exfalso. destruct O as [a E]. apply (F1 (rev a)). rewrite <- (rev_involutive d), E. reflexivity.
  - exfalso. destruct O as [a E]. apply (F2 (rev a)). rewrite <- (rev_involutive d), E. cbn [rev]. rewrite <- app_assoc. reflexivity.
Qed.
(** Data which ends with E hides the end of the image: EEI is taken for EE and I. Nor is the end found when the data ends with EI *)
Theorem C105_hidden_refuted c d w k : no_end d -> ends_free d -> no_end (w :: k) -> is_ws w = true ->
  read_image_data (c :: (d ++ bs "E") ++ bs "EI" ++ w :: k) = None /\ read_image_data (c :: (d ++ bs "EI") ++ bs "EI" ++ w :: k) = None.
Proof.
  intros N F NK W. cbn [read_image_data]. rewrite <- !app_assoc, !data_before by assumption. change (bs "E") with [69]. change (bs "EI") with [69; 73]. cbn [app]. split.
  - change (image_data WantE (rev d) (69 :: 69 :: 73 :: w :: k)) with (image_data WantE (73 :: 69 :: 69 :: rev d) (w :: k)). apply data_start. exact NK.
  - change (image_data WantE (rev d) (69 :: 73 :: 69 :: 73 :: w :: k)) with (image_data WantE (73 :: 69 :: 73 :: 69 :: rev d) (w :: k)). apply data_start. exact NK.
Qed.
Print Assumptions C105_hidden_refuted.
(** EI at the end of the stream is not seen without white space after it *)
Theorem C105_last_refuted c d : no_end (d ++ bs "EI") -> read_image_data (c :: d ++ bs "EI") = None.
Proof. intros N. cbn [read_image_data]. apply data_start. exact N. Qed.
Print Assumptions C105_last_refuted.
Definition plain (op : Z) (n : list Z) (args : list obj) : content := shown COperator 0 args op n.
(** A key without a value ends the stream without any warning *)
Theorem C105_key_refuted : read_all 9 case_world (mk_ra false false None) (open_device (bs "q BI /W ID x EI Q")) new_content = Ok [plain 9 (bs "q") []].
Proof. reflexivity. Qed.
Print Assumptions C105_key_refuted.
(** An image in a form which does not end makes what follows the form be read as its data *)
Definition open_world : world := mk_world (fun c n => Some (7, XForm)) (fun x => [Some (bs "BI /W 1 ID ab")]).
Theorem C105_form_refuted : (do r <- open_canvas 3 2 [Some (bs "/F Do q BI /H 2 ID cd EI Q")]; read_all 9 open_world (mk_ra false false None) r new_content) =
  Ok [do_shown 0 (bs "F") 7 XForm; mk_ct CImageDict 0 [] 0 [] [(bs "W", ONum 1)] [] None None; shown CEndForm 0 [] 0 [];
      mk_ct CImageData 0 [] 0 [] [] (bs "q BI /H 2 ID cd ") None None; plain 10 (bs "Q") []].
Proof. vm_compute. reflexivity. Qed.
Print Assumptions C105_form_refuted.
(** With a handler, the dictionary of an image which follows another has the keys of both *)
Definition case_handler : handler := fun d b => (true, skipn 2 b).
Theorem C105_keys_refuted : read_all 9 case_world (mk_ra false false (Some case_handler)) (open_device (bs "BI /W 1 ID x EI BI /H 2 ID y EI Q")) new_content =
  Ok [mk_ct CImageDict 0 [] 0 [] [(bs "W", ONum 1)] [] None None; mk_ct CImageDict 0 [] 0 [] [(bs "H", ONum 2); (bs "W", ONum 1)] [] None None; plain 10 (bs "Q") []].
Proof. vm_compute. reflexivity. Qed.
Print Assumptions C105_keys_refuted.
Example C105_case : read_image_data (bs " E I EIx " ++ bs "EI" ++ [10; 81]) = Some (bs "E I EIx ", [81]) /\ read_image_data (bs " aEEI Q") = None /\ read_image_data (bs " aEI") = None /\
  read_image_data (bs " a EI b EI ") = Some (bs "a ", bs "b EI ").
Proof. vm_compute. repeat split. Qed.

(** ** C106: reading ends *)
(** Any bytes, any operators, any handler which does not make the device longer: after some number of contents reading ends or fails, and the
    code does nothing undefined. The forms that the resources name are finitely many; they may draw each other and themselves *)
Theorem C106_ends w a xs canvas obj streams :
  (forall cv n x, w_xobject w cv n = Some (x, XForm) -> In x xs) ->
  (forall h, ra_handler a = Some h -> forall d b, (length (snd (h d b)) <= length b)%nat) ->
  exists n, forall fuel, (n <= fuel)%nat -> (exists out, (do r <- open_canvas canvas obj streams; read_all fuel w a r new_content) = Ok out) \/
    (exists e, (do r <- open_canvas canvas obj streams; read_all fuel w a r new_content) = Err e).
Proof.
  intros F S. unfold open_canvas. rewrite all_joined. cbn [bind]. destruct (reading_ends w a xs (Some (canvas, obj)) (joined (texts streams)) new_content F S) as [n H]. exists n. intros fuel L.
  destruct (H fuel L) as [A B]. destruct (read_all fuel w a _ new_content) as [out|e| |]; [left; eexists; reflexivity|right; eexists; reflexivity|contradiction|contradiction].
Qed.
Print Assumptions C106_ends.
Theorem C106_device w a xs text :
  (forall cv n x, w_xobject w cv n = Some (x, XForm) -> In x xs) ->
  (forall h, ra_handler a = Some h -> forall d b, (length (snd (h d b)) <= length b)%nat) ->
  exists n, forall fuel, (n <= fuel)%nat -> (exists out, read_all fuel w a (open_device text) new_content = Ok out) \/ (exists e, read_all fuel w a (open_device text) new_content = Err e).
Proof.
  intros F S. destruct (reading_ends w a xs None text new_content F S) as [n H]. exists n. intros fuel L. unfold open_device.
  destruct (H fuel L) as [A B]. destruct (read_all fuel w a _ new_content) as [out|e| |]; [left; eexists; reflexivity|right; eexists; reflexivity|contradiction|contradiction].
Qed.
Print Assumptions C106_device.
(** One number of contents is enough for all *)
Theorem C106_same fuel more w a r c out : read_all fuel w a r c = Ok out -> (fuel <= more)%nat -> read_all more w a r c = Ok out.
Proof.
  revert more r c out. induction fuel as [|f IH]; intros more r c out H L; [discriminate|]. destruct more as [|m]; [lia|]. cbn [read_all] in *. destruct (try_read_next w a r c) as [[[ok r1] c1]| | |]; cbn [bind] in *; try discriminate.
  destruct ok; [|exact H]. destruct (read_all f w a r1 c1) as [l| | |] eqn:E; cbn [bind] in H; try discriminate. rewrite (IH m r1 c1 l E ltac:(lia)). exact H.
Qed.
Print Assumptions C106_same.
(** Two forms which draw each other and themselves *)
Definition knot : world := mk_world (fun c n => if beq n (bs "F") then Some (7, XForm) else Some (8, XForm)) (fun x => [Some (bs "/F Do /G Do")]).
Example C106_case : exists out, (do r <- open_canvas 3 2 [Some (bs "/F Do /G Do BI )")]; read_all 30 knot (mk_ra false false None) r new_content) = Err EInvalidEnumValue /\
  (do r <- open_canvas 3 2 [Some (bs "/F Do /G Do")]; read_all 30 knot (mk_ra false false None) r new_content) = Ok out /\ length out = 14%nat.
Proof. eexists. split; [vm_compute; reflexivity|]. split; [vm_compute; reflexivity|]. reflexivity. Qed.
