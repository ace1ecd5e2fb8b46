(** Theorems on lists of differences, names of glyphs, difference encodings and built-in encodings. *)
From Coq Require Import Lia String.
From Verif Require Import Base TokModel ObjSpec CodeModel CodeSpec CodeProofs CodePropLemmas FontModel DiffTables DiffModel DiffSpec DiffProofs DiffPropLemmas ChainProofs.
Local Open Scope Z_scope.

(** ** C99 *)
(** A list that is made by adding differences has, for each code, what was added last *)
Inductive made : diffs -> list (Z * (list Z * Z)) -> Prop :=
  | M_none : made [] []
  | M_point : forall l h c cp, made l h -> 0 <= c < 256 -> made (add_point l c cp) (h ++ [(c, (point_name cp, cp))])
  | M_name : forall l h (ex : bool) c n l2 cp, made l h -> 0 <= c < 256 -> add_name ex l c n = Ok l2 -> (if ex then cp = c else name_point n = Ok cp) -> made l2 (h ++ [(c, (n, cp))]).
Theorem C99_last l h : made l h -> ascending 0 255 l /\ forall c v, In (c, v) l <-> exists h1 h2, h = h1 ++ (c, v) :: h2 /\ forall w, ~ In (c, w) h2.
Proof.
  intros M. assert (G : forall l h c w, ascending 0 255 l /\ (forall d v, In (d, v) l <-> exists h1 h2, h = h1 ++ (d, v) :: h2 /\ forall w, ~ In (d, w) h2) -> 0 <= c < 256 ->
    ascending 0 255 (put_diff l c w) /\ (forall d v, In (d, v) (put_diff l c w) <-> exists h1 h2, h ++ [(c, w)] = h1 ++ (d, v) :: h2 /\ forall w, ~ In (d, w) h2)).
  { clear. intros l h c w [A B] C. assert (A2 : ascending 0 255 (put_diff l c w)) by (apply put_ascending; [exact A|lia]). split; [exact A2|]. intros d v. rewrite <- (find_in _ _ _ _ _ A2), (find_put _ _ _ _ _ _ A). destruct (Z.eqb_spec d c) as [->|NE].
    - split.
      + intros E. injection E as ->. exists h, []. split; [reflexivity|]. intros x [].
      + intros (h1 & h2 & E & N). apply last_split in E. destruct E as [(_ & _ & E)|(h3 & E1 & E2)]; [congruence|]. subst h2. destruct (N w). apply in_or_app. right. left. reflexivity.
    - rewrite (find_in _ _ _ _ _ A), B. split; intros (h1 & h2 & E & N).
      + exists h1, (h2 ++ [(c, w)]). split; [rewrite E, <- app_assoc; reflexivity|]. intros x I. apply in_app_or in I. destruct I as [I|[I|[]]]; [exact (N x I)|]. injection I as I _. congruence.
      + apply last_split in E. destruct E as [(_ & _ & E)|(h3 & E1 & E2)]; [congruence|]. exists h1, h3. split; [exact E2|]. intros x I. apply (N x). subst h2. apply in_or_app. left. exact I. }
  induction M as [|l h c cp M IH C|l h ex c n l2 cp M IH C E Q].
  - split; [exact I|]. intros c v. split; [intros []|]. intros (h1 & h2 & E & _). destruct h1; discriminate.
  - apply (G _ _ _ _ IH C).
  - apply add_name_ok in E. destruct E as (cp2 & Q2 & ->). assert (cp = cp2) by (eapply meant_fun; [exact Q|exact Q2]). subst cp2. apply (G _ _ _ _ IH C).
Qed.
Print Assumptions C99_last.
(** What is read from an array of differences is what the array says; the codes count modulo 256 *)
Theorem C99_read (ex : bool) arr l : read_diffs ex (-1) [] arr = Ok l ->
  ascending 0 255 l /\ forall c n cp, In (c, (n, cp)) l <-> told arr c n /\ (if ex then cp = c else name_point n = Ok cp).
Proof. exact (read_meaning ex arr l). Qed.
Print Assumptions C99_read.
(** It is read if the names can be read *)
Theorem C99_reads ex arr : (forall n, In (OName n) arr -> ex = true \/ exists cp, name_point n = Ok cp) -> (forall v, In (ONum v) arr -> v + Z.of_nat (length arr) < 2 ^ 63) -> Z.of_nat (length arr) < 2 ^ 63 ->
  exists l, read_diffs ex (-1) [] arr = Ok l.
Proof. intros N V L. apply read_total; [exact N|lia|exact V]. Qed.
Print Assumptions C99_reads.
(** One name that cannot be read makes the whole array fail *)
Theorem C99_name_refuted arr n : In (OName n) arr -> name_point n = Err ENoNumber -> forall l, read_diffs false (-1) [] arr <> Ok l.
Proof. intros I E. apply (read_fails arr (-1) [] n I). intros cp. rewrite E. discriminate. Qed.
Print Assumptions C99_name_refuted.
(** A list with the code points of its names is read back from the array that is written for it *)
Theorem C99_written (ex : bool) l : ascending 0 255 l -> (forall c n cp, In (c, (n, cp)) l -> if ex then cp = c else name_point n = Ok cp) -> read_diffs ex (-1) [] (to_array (-2) l) = Ok l.
Proof. intros A M. apply (read_written ex l (-2) (-1) [] 0); [exact A|lia|lia|left; reflexivity|intros k w []|exact M]. Qed.
Print Assumptions C99_written.
(** So an encoding is read back from the dictionary that is written for it, if its base has a name, or is the one that a font without a name has *)
Theorem C99_dictionary (ex : bool) implicit e : ascending 0 255 (d_list e) -> (forall c n cp, In (c, (n, cp)) (d_list e) -> if ex then cp = c else name_point n = Ok cp) ->
  d_base e = win_ansi \/ d_base e = mac_roman \/ d_base e = mac_expert \/ (b_export (d_base e) = Ok None /\ d_base e = match implicit with Some b => b | None => standard end) ->
  exists b d, export e = Ok (b, d) /\ create ex implicit b d = Ok e.
Proof.
  intros A M B. destruct e as [l b]. cbn [d_list d_base] in *.
  assert (R : forall o bm, (match o with None => Ok (match implicit with Some x => x | None => standard end) | Some (OName n) => base_named n | Some _ => Err EInvalidDataType end) = Ok bm ->
    create ex implicit o (if Nat.eqb (length l) 0 then None else Some (OArr (to_array (-2) l))) = Ok (mk_diff l bm)).
  { intros o bm E. unfold create. rewrite E. cbn [bind]. pose proof (C99_written ex l A M) as W. destruct l as [|p l]; [reflexivity|]. cbn [length Nat.eqb]. rewrite W. reflexivity. }
  destruct B as [->|[->|[->|[X ->]]]]; unfold export; cbn [d_base d_list].
  - eexists _, _. split; [reflexivity|]. apply R. reflexivity.
  - eexists _, _. split; [reflexivity|]. apply R. reflexivity.
  - eexists _, _. split; [reflexivity|]. apply R. reflexivity.
  - rewrite X. cbn [bind]. eexists _, _. split; [reflexivity|]. apply R. reflexivity.
Qed.
Print Assumptions C99_dictionary.
(** A difference added by its code point comes back as another code point if the code point does not survive its name *)
Lemma lost_low cp : In cp lost -> 0 <= cp < 65536.
Proof.
  intros L. assert (F : forallb (fun cp => (0 <=? cp) && (cp <? 65536)) lost = true) by (vm_compute; reflexivity). pose proof (proj1 (forallb_forall _ _) F cp L) as K. cbv beta in K. apply andb_prop in K. destruct K as [K1 K2]. apply Z.leb_le in K1. apply Z.ltb_lt in K2. lia.
Qed.
Lemma one_back c nm cp cp2 l n : 0 <= c < 256 -> read_diffs false (-1) [] (to_array (-2) [(c, (nm, cp))]) = Ok l -> In (c, (n, cp2)) l -> name_point nm = Ok cp2.
Proof.
  intros C E I. apply C99_read in E. destruct E as [_ E]. apply E in I. destruct I as [(pre & post & k & EA & _) M]. assert (n = nm); [|subst; exact M]. cbn [to_array] in EA. destruct (Z.eqb_spec c (-2 + 1)); [lia|].
  destruct pre as [|x [|y [|z pre]]]; cbn [app] in EA; congruence.
Qed.
Theorem C99_point_refuted c cp : 0 <= c < 256 -> In cp lost -> ~ exists l, read_diffs false (-1) [] (to_array (-2) (add_point [] c cp)) = Ok l /\ exists n, In (c, (n, cp)) l.
Proof. intros C L (l & E & n & I). exact (proj1 (names_exact cp (lost_low cp L)) (one_back c (point_name cp) cp cp l n C E I) L). Qed.
Print Assumptions C99_point_refuted.
(** Codes past 255 count from 0 again, and a name before any number has the code 255 *)
Theorem C99_code_refuted : exists arr l, read_diffs false (-1) [] arr = Ok l /\ arr = [OName (bs "B"); ONum 321; OName (bs "space")] /\ In (255, (bs "B", 66)) l /\ In (65, (bs "space", 32)) l.
Proof. eexists _, _. split; [|split; [reflexivity|]]; [vm_compute; reflexivity|]. split; [right; left; reflexivity|left; reflexivity]. Qed.
Print Assumptions C99_code_refuted.
(** The encoding of a TrueType font whose codes are its CIDs cannot be written with differences *)
Theorem C99_identity_refuted l n : export (mk_diff l (identity_base n)) = Err EInvalidEnumValue.
Proof. reflexivity. Qed.
Print Assumptions C99_identity_refuted.

(** ** C100 *)
(** The code points below 65536 survive their name, except the 102 of the list; the ones from 65536 on do not *)
Theorem C100_round cp : 0 <= cp < 65536 -> name_point (point_name cp) = Ok cp <-> ~ In cp lost.
Proof. exact (names_exact cp). Qed.
Print Assumptions C100_round.
Theorem C100_high_refuted cp : 65536 <= cp -> name_point (point_name cp) <> Ok cp.
Proof. exact (high_lost cp). Qed.
Print Assumptions C100_high_refuted.
(** Each name of the table gives its code point; uni and four digits in both cases give the number *)
Theorem C100_listed u n : In (u, n) names_table -> name_point n = Ok u.
Proof. intros I. apply same_res_iff. exact (proj1 (forallb_forall _ _) listed (u, n) I). Qed.
Print Assumptions C100_listed.
Theorem C100_uni x1 x2 x3 x4 d1 d2 d3 d4 : hex_is x1 d1 -> hex_is x2 d2 -> hex_is x3 d3 -> hex_is x4 d4 -> name_point (bs "uni" ++ [x1; x2; x3; x4]) = Ok (4096 * d1 + 256 * d2 + 16 * d3 + d4).
Proof.
  assert (D : forall x d, hex_is x d -> digit_of x = d /\ 0 <= d < 16).
  { intros x d H. destruct H as [d B|d B|d B]; (split; [|lia]); unfold digit_of.
    - rewrite (proj2 (Z.leb_le 48 (48 + d))), (proj2 (Z.leb_le (48 + d) 57)) by lia. cbn [andb]. lia.
    - rewrite (proj2 (Z.leb_gt (65 + d) 57)), (proj2 (Z.leb_gt 97 (65 + d))), (proj2 (Z.leb_le 65 (65 + d))), (proj2 (Z.leb_le (65 + d) 90)) by lia. rewrite andb_false_r. cbn [andb]. lia.
    - rewrite (proj2 (Z.leb_gt (97 + d) 57)), (proj2 (Z.leb_le 97 (97 + d))), (proj2 (Z.leb_le (97 + d) 122)) by lia. rewrite andb_false_r. cbn [andb]. lia. }
  intros H1 H2 H3 H4. apply D in H1, H2, H3, H4. destruct H1 as [<- H1], H2 as [<- H2], H3 as [<- H3], H4 as [<- H4]. rewrite uni_four_general by lia. unfold four_point. f_equal. lia.
Qed.
Print Assumptions C100_uni.
(** Names outside the table that do not start with uni are all taken for 0 *)
Theorem C100_other n : ~ In n (map snd names_table) -> firstn 3 n <> bs "uni" -> name_point n = Ok 0.
Proof.
  intros N P. unfold name_point. assert (E : point_of names_table n = None).
  { revert N. generalize names_table. intros t. induction t as [|[u m] t IH]; intros N; [reflexivity|]. cbn [point_of]. destruct (beq m n) eqn:E; [apply beq_eq in E; subst m; destruct N; left; reflexivity|]. apply IH. intros I. apply N. right. exact I. }
  rewrite E. destruct (beq (firstn 3 n) (bs "uni")) eqn:B; [apply beq_eq in B; contradiction|reflexivity].
Qed.
Print Assumptions C100_other.
(** Names outside the table that start with uni without a digit after it are errors *)
Theorem C100_word_refuted r : ~ In (bs "uni" ++ r) (map snd names_table) -> (r = [] \/ exists x q, r = x :: q /\ forall d, ~ hex_is x d) -> name_point (bs "uni" ++ r) = Err ENoNumber.
Proof.
  intros N R. unfold name_point. assert (E : point_of names_table (bs "uni" ++ r) = None).
  { revert N. generalize names_table. intros t. induction t as [|[u m] t IH]; intros N; [reflexivity|]. cbn [point_of]. destruct (beq m (bs "uni" ++ r)) eqn:E; [apply beq_eq in E; subst m; destruct N; left; reflexivity|]. apply IH. intros I. apply N. right. exact I. }
  rewrite E. change (firstn 3 (bs "uni" ++ r)) with (bs "uni"). rewrite beq_refl. change (skipn 3 (bs "uni" ++ r)) with r. destruct R as [->|(x & q & -> & H)]; [reflexivity|].
  assert (D : 16 <= digit_of x).
  { assert (H1 : ~ (48 <= x <= 57)) by (intros B; apply (H (x - 48)); replace x with (48 + (x - 48)) at 1 by lia; apply H_digit; lia).
    assert (H2 : ~ (97 <= x <= 102)) by (intros B; apply (H (10 + (x - 97))); replace x with (97 + (x - 97)) at 1 by lia; apply H_lower; lia).
    assert (H3 : ~ (65 <= x <= 70)) by (intros B; apply (H (10 + (x - 65))); replace x with (65 + (x - 65)) at 1 by lia; apply H_upper; lia).
    unfold digit_of. destruct (Z.leb_spec 48 x), (Z.leb_spec x 57); cbn [andb]; try lia; destruct (Z.leb_spec 97 x), (Z.leb_spec x 122); cbn [andb]; try lia; destruct (Z.leb_spec 65 x), (Z.leb_spec x 90); cbn [andb]; lia. }
  unfold from_chars_unsigned. cbn [leading]. rewrite (proj2 (Z.ltb_ge (digit_of x) _)); [reflexivity|]. destruct (_ =? 4); lia.
Qed.
Print Assumptions C100_word_refuted.
(** The names of the Adobe glyph list for a sequence, with a suffix and with more digits are read as other numbers *)
Theorem C100_forms_refuted : name_point (bs "uni00410042") = Ok 410042 /\ name_point (bs "uni0041.alt") = Ok 41 /\ name_point (bs "u1F600") = Ok 0 /\ name_point (bs "A.swash") = Ok 0 /\ name_point (bs "A") = Ok 65.
Proof. split; [vm_compute; reflexivity|]. split; [vm_compute; reflexivity|]. split; [vm_compute; reflexivity|]. split; vm_compute; reflexivity. Qed.
Print Assumptions C100_forms_refuted.

(** ** C101 *)
(** The code of a code point is the last code inside the limits of the base that stands for it *)
Theorem C101_code zero e pts : ascending 0 255 (d_list e) -> one_byte_base zero (d_base e) pts -> forall cp, exists r, diff_code zero e cp = Ok r /\
  forall c, r = Some c <-> exists k, c = mk_code k (size_of zero k) /\ b_first (d_base e) <= k <= b_last (d_base e) /\ shown (d_list e) pts k cp /\ forall j, k < j <= b_last (d_base e) -> ~ shown (d_list e) pts j cp.
Proof. exact (code_iff zero e pts). Qed.
Print Assumptions C101_code.
(** A code stands for the code point of its difference or of the base *)
Theorem C101_points zero e pts c cp : ascending 0 255 (d_list e) -> one_byte_base zero (d_base e) pts -> 0 <= c <= 255 -> diff_points e (mk_code c 1) = Some [cp] <-> shown (d_list e) pts c cp.
Proof. exact (points_shown zero e pts c cp). Qed.
Print Assumptions C101_points.
(** Text is encoded exactly if each code point has a code, one byte for each code point, and is decoded to the same text *)
Theorem C101_text e pts text : ascending 0 255 (d_list e) -> one_byte_base 1 (d_base e) pts -> Forall (fun cp => kept cp = true) text ->
  (Forall (fun cp => exists c, b_first (d_base e) <= c <= b_last (d_base e) /\ shown (d_list e) pts c cp) text -> exists out, encode_with (diff_code 1 e) text [] = Ok (Some out)) /\
  (forall out, encode_with (diff_code 1 e) text [] = Ok (Some out) -> length out = length text /\ decode (length out) (diff_points e) one_byte out = Ok (text, true)).
Proof.
  intros A B K. assert (S1 : forall c, 0 <= c <= 255 -> size_of 1 c = 1) by (intros c C; destruct (Z.eq_dec c 0) as [->|]; [reflexivity|apply size_one; lia]).
  pose proof B as (B1 & B2 & _).
  assert (H : forall cp c, diff_code 1 e cp = Ok (Some c) -> c_size c = 1 /\ 0 <= c_num c < 256).
  { intros cp c E. destruct (code_iff 1 e pts A B cp) as (r & E2 & R). rewrite E in E2. apply ok_inj in E2. subst r. destruct (proj1 (R c) eq_refl) as (k & -> & X & _). cbn. rewrite S1 by lia. lia. }
  split.
  - intros F. apply encode_total; [exact H|]. eapply Forall_impl; [|exact F]. cbv beta. intros cp (c & C & S0). destruct (code_iff 1 e pts A B cp) as (r & E2 & R). rewrite E2.
    destruct (last_that (fun k => shown (d_list e) pts k cp)) with (n := Z.to_nat (b_last (d_base e) + 1 - b_first (d_base e))) (c := b_first (d_base e)) as [(k & K1 & K2 & K3)|N].
    + intros k. destruct (find_diff (d_list e) k) as [[n u]|] eqn:FD.
      * apply (find_in _ _ _ _ _ A) in FD. destruct (Z.eq_dec u cp) as [->|NE]; [left; left; eauto|right]. intros [(m & I)|[N _]]; [|exact (N _ FD)]. apply (find_in _ _ _ _ _ A) in I. apply (find_in _ _ _ _ _ A) in FD. congruence.
      * assert (N : forall v, ~ In (k, v) (d_list e)) by (intros v I; apply (find_in _ _ _ _ _ A) in I; congruence). destruct (pts k) as [u|] eqn:P; [destruct (Z.eq_dec u cp) as [->|NE]; [left; right; auto|]|]; right; intros [(m & I)|[_ X]]; try exact (N _ I); congruence.
    + exists (mk_code k (size_of 1 k)). f_equal. apply R. exists k. split; [reflexivity|]. split; [lia|]. split; [exact K2|]. intros j J. apply K3. lia.
    + destruct (N c); [lia|exact S0].
  - intros out E. destruct (encode_shape _ H _ _ _ E) as (cs & -> & F). cbn [app]. split; [clear -F; induction F; [reflexivity|cbn; congruence]|]. rewrite (decode_one _ text).
    + rewrite (all_kept _ K). reflexivity.
    + clear -F A B. induction F as [|cp c text cs [F1 F2] F IH]; [constructor|]. constructor; [|exact IH]. split; [|exact F2]. destruct (code_iff 1 e pts A B cp) as (r & E2 & R). rewrite F1 in E2. apply ok_inj in E2. subst r.
      destruct (proj1 (R _) eq_refl) as (k & EK & X & S0 & _). assert (k = c) by (apply (f_equal c_num) in EK; cbn in EK; congruence). subst k. apply (points_shown 1 e pts c cp A B); [lia|exact S0].
Qed.
Print Assumptions C101_text.
(** The six tables are bases of that kind, whatever the size of the code 0 *)
Theorem C101_tables zero : Forall (fun b => exists t x, b = builtin t x /\ length t = 256%nat /\ one_byte_base zero b (fun c => nth_error t (Z.to_nat c))) [win_ansi; mac_roman; mac_expert; standard; symbol; zapf].
Proof. repeat constructor; eexists _, _; (split; [reflexivity|]); (split; [reflexivity|]); apply builtin_base; reflexivity. Qed.
Print Assumptions C101_tables.
(** A built-in encoding: each code point of the table has a code, the last one, and text is decoded to what was encoded *)
Theorem C101_builtin t text : length t = 256%nat -> Forall (fun cp => kept cp = true) text ->
  (Forall (fun cp => In cp t) text -> exists out, encode_with (fun cp => Ok (builtin_code t cp)) text [] = Ok (Some out)) /\
  (forall out, encode_with (fun cp => Ok (builtin_code t cp)) text [] = Ok (Some out) -> length out = length text /\ decode (length out) (builtin_points t) one_byte out = Ok (text, true)).
Proof.
  intros L K. assert (H : forall cp c, @Ok (option code) (builtin_code t cp) = Ok (Some c) -> c_size c = 1 /\ 0 <= c_num c < 256 /\ nth_error t (Z.to_nat (c_num c)) = Some cp).
  { intros cp c E. apply ok_inj in E. unfold builtin_code in E. destruct (last_code 0 t cp) as [k|] eqn:LC; [|discriminate]. injection E as <-. apply last_code_spec in LC. rewrite Z.sub_0_r, L in LC. cbn. destruct LC as (X & Y & _). split; [reflexivity|]. split; [lia|exact Y]. }
  assert (H2 : forall cp c, @Ok (option code) (builtin_code t cp) = Ok (Some c) -> c_size c = 1 /\ 0 <= c_num c < 256) by (intros cp c E; destruct (H cp c E) as (X & Y & _); split; assumption). split.
  - intros F. apply encode_total; [exact H2|]. eapply Forall_impl; [|exact F]. cbv beta. intros cp I. apply In_nth_error in I. destruct I as [n I]. assert (LN : (n < 256)%nat) by (rewrite <- L; apply nth_error_Some; rewrite I; discriminate).
    unfold builtin_code. destruct (last_code 0 t cp) as [k|] eqn:LC; [eexists; reflexivity|]. exfalso.
    destruct (last_that (fun k => nth_error t (Z.to_nat k) = Some cp)) with (n := 256%nat) (c := 0) as [(k & K1 & K2 & K3)|N].
    + intros k. destruct (nth_error t (Z.to_nat k)) as [v|]; [|right; discriminate]. destruct (Z.eq_dec v cp); [left; congruence|right; congruence].
    + assert (X : last_code 0 t cp = Some k); [|congruence]. apply last_code_spec. rewrite L, Z.sub_0_r. split; [lia|]. split; [exact K2|]. intros j J. rewrite Z.sub_0_r. apply K3. lia.
    + apply (N (Z.of_nat n)); [lia|]. rewrite Nat2Z.id. exact I.
  - intros out E. destruct (encode_shape _ H2 _ _ _ E) as (cs & -> & F). cbn [app]. split; [clear -F; induction F; [reflexivity|cbn; congruence]|]. rewrite (decode_one _ text); [rewrite (all_kept _ K); reflexivity|].
    clear -F H L. induction F as [|cp c text cs [F1 F2] F IH]; [constructor|]. constructor; [|exact IH]. split; [|exact F2]. apply (builtin_points_at t c 1 cp L); [lia|]. exact (proj2 (proj2 (H _ _ F1))).
Qed.
Print Assumptions C101_builtin.
(** WinAnsiEncoding is Latin 1 where that has letters and signs, MacRomanEncoding and MacExpertEncoding and the others have no code point at two codes
    except 0, and the grave accent of StandardEncoding *)
Theorem C101_latin c : 32 <= c <= 126 \/ 160 <= c <= 255 -> nth_error win_table (Z.to_nat c) = Some c.
Proof.
  intros B. assert (F : forallb (fun n => match nth_error win_table n with Some u => u =? Z.of_nat n | None => false end) (seq 32 95 ++ seq 160 96) = true) by (vm_compute; reflexivity).
  pose proof (proj1 (forallb_forall _ _) F (Z.to_nat c)) as G. cbv beta in G. assert (I : In (Z.to_nat c) (seq 32 95 ++ seq 160 96)) by (apply in_or_app; rewrite !in_seq; lia). specialize (G I). destruct (nth_error win_table (Z.to_nat c)) as [u|]; [|discriminate]. apply Z.eqb_eq in G. f_equal. lia.
Qed.
Print Assumptions C101_latin.
Theorem C101_ascii t c : In t [win_table; mac_table] -> 32 <= c <= 126 -> nth_error t (Z.to_nat c) = Some c.
Proof.
  intros T B. assert (F : forallb (fun t => forallb (fun n => match nth_error t n with Some u => u =? Z.of_nat n | None => false end) (seq 32 95)) [win_table; mac_table] = true) by (vm_compute; reflexivity).
  pose proof (proj1 (forallb_forall _ _) F t T) as G. cbv beta in G. pose proof (proj1 (forallb_forall _ _) G (Z.to_nat c)) as H. cbv beta in H. specialize (H ltac:(apply in_seq; lia)). destruct (nth_error t (Z.to_nat c)) as [u|]; [|discriminate]. apply Z.eqb_eq in H. f_equal. lia.
Qed.
Print Assumptions C101_ascii.
Definition unique_at (skip : Z) (t : list Z) : bool := forallb (fun n => match nth_error t n with Some u => (u =? 0) || (u =? skip) || match last_code 0 t u with Some c => c =? Z.of_nat n | None => false end | None => false end) (seq 0 256).
Lemma unique_sound skip t c u : unique_at skip t = true -> 0 <= c < 256 -> nth_error t (Z.to_nat c) = Some u -> u <> 0 -> u <> skip -> builtin_code t u = Some (mk_code c 1).
Proof.
  intros U C N NZ NS. pose proof (proj1 (forallb_forall _ _) U (Z.to_nat c) ltac:(apply in_seq; lia)) as G. cbv beta in G. rewrite N in G. destruct (Z.eqb_spec u 0); [contradiction|]. destruct (Z.eqb_spec u skip); [contradiction|]. cbn [orb] in G.
  unfold builtin_code. destruct (last_code 0 t u) as [k|]; [|discriminate]. apply Z.eqb_eq in G. rewrite Z2Nat.id in G by lia. subst k. reflexivity.
Qed.
Theorem C101_unique t c u : In t [win_table; mac_table; expert_table; symbol_table; zapf_table] -> 0 <= c < 256 -> nth_error t (Z.to_nat c) = Some u -> u <> 0 -> builtin_code t u = Some (mk_code c 1).
Proof.
  intros T C N NZ. apply (unique_sound 0 t c u); try assumption. revert T. clear. intros T. assert (F : forallb (unique_at 0) [win_table; mac_table; expert_table; symbol_table; zapf_table] = true) by (vm_compute; reflexivity). exact (proj1 (forallb_forall _ _) F t T).
Qed.
Print Assumptions C101_unique.
Theorem C101_standard c u : 0 <= c < 256 -> nth_error standard_table (Z.to_nat c) = Some u -> u <> 0 -> builtin_code standard_table u = Some (mk_code (if u =? 96 then 193 else c) 1).
Proof.
  intros C N NZ. destruct (Z.eqb_spec u 96) as [->|NE]; [vm_compute; reflexivity|]. apply (unique_sound 96); try assumption. vm_compute. reflexivity.
Qed.
Print Assumptions C101_standard.
(** With the codes of a TrueType font as the base, a difference at the code 0 is looked up at 256 too: its text is encoded as two bytes and decoded as other text *)
Theorem C101_identity_refuted n u : kept u = true -> u < 256 -> exists out, encode_with (diff_code 1 (mk_diff [(0, (n, u))] (identity_base 1))) [u] [] = Ok (Some out) /\
  decode (length out) (diff_points (mk_diff [(0, (n, u))] (identity_base 1))) one_byte out = Ok ([1; u], true) /\ out = [1; 0].
Proof.
  intros K U. exists [1; 0]. split; [|split; [|reflexivity]].
  - cbn [encode_with]. unfold diff_code. cbn [d_base identity_base b_first b_last]. destruct (reverse_total 1 (mk_diff [(0, (n, u))] (identity_base 1)) 257 0 []) as [m E]; [intros k X; discriminate|].
    change (Z.to_nat (2 ^ (8 * 1) + 1 - 0)) with 257%nat. rewrite E. cbn [bind]. assert (F : find_point m u = Some 256).
    { apply (reverse_iff _ _ _ _ _ E). split; [lia|]. split; [reflexivity|]. intros j J. lia. }
    rewrite F. reflexivity.
  - cbn [length decode]. assert (E1 : next_points (diff_points (mk_diff [(0, (n, u))] (identity_base 1))) one_byte [1; 0] 0 1 = Some ([1], [0])) by reflexivity. rewrite E1.
    assert (E2 : next_points (diff_points (mk_diff [(0, (n, u))] (identity_base 1))) one_byte [0] 0 1 = Some ([u], [])) by reflexivity. cbv iota beta. rewrite E2. cbn [bind fst snd filter]. rewrite K. reflexivity.
Qed.
Print Assumptions C101_identity_refuted.
(** A difference outside the limits of the base is decoded but never encoded *)
Theorem C101_narrow_refuted zero b pts c n u : one_byte_base zero b pts -> b_last b < c <= 255 -> (forall k, b_first b <= k <= b_last b -> pts k <> Some u) ->
  diff_points (mk_diff [(c, (n, u))] b) (mk_code c 1) = Some [u] /\ diff_code zero (mk_diff [(c, (n, u))] b) u = Ok None.
Proof.
  intros B C N. assert (A : ascending 0 255 [(c, (n, u))]) by (cbn; destruct B as (B1 & _); lia). split.
  - apply (points_shown zero (mk_diff [(c, (n, u))] b) pts c u A B); [destruct B as (B1 & _); lia|]. left. exists n. left. reflexivity.
  - destruct (code_iff zero (mk_diff [(c, (n, u))] b) pts A B u) as (r & E & R). rewrite E. destruct r as [x|]; [|reflexivity]. exfalso. destruct (proj1 (R x) eq_refl) as (k & _ & K & S0 & _). cbn [d_base d_list] in *.
    destruct S0 as [(m & [I|[]])|[_ P]]; [apply (f_equal fst) in I; cbn in I; lia|]. exact (N k K P).
Qed.
Print Assumptions C101_narrow_refuted.

(** ** Examples *)
Example C99_case : exists l, read_diffs false (-1) [] [ONum 65; OName (bs "Euro"); OName (bs "eacute"); ONull; ONum 200; OName (bs "uni20AC"); ONum 65; OName (bs "space")] = Ok l /\
  l = [(65, (bs "space", 32)); (66, (bs "eacute", 233)); (200, (bs "uni20AC", 8364))] /\
  to_array (-2) l = [ONum 65; OName (bs "space"); OName (bs "eacute"); ONum 200; OName (bs "uni20AC")].
Proof. eexists. split; [vm_compute; reflexivity|]. split; vm_compute; reflexivity. Qed.
Example C100_case : point_name 8364 = bs "Euro" /\ name_point (bs "Euro") = Ok 8364 /\ point_name 160 = bs "space" /\ point_name 4660 = bs "uni1234" /\ point_name 128512 = bs "uni1f600" /\ name_point (bs "uni1f600") = Ok 1 /\ name_point (bs "unicorn") = Ok 12 /\ name_point (bs "unit") = Err ENoNumber.
Proof. split; [vm_compute; reflexivity|]. split; [vm_compute; reflexivity|]. split; [vm_compute; reflexivity|]. split; [vm_compute; reflexivity|]. split; [vm_compute; reflexivity|]. split; [vm_compute; reflexivity|]. split; vm_compute; reflexivity. Qed.
Example C101_case : exists e out, create false None (Some (OName (bs "WinAnsiEncoding"))) (Some (OArr [ONum 1; OName (bs "alpha")])) = Ok e /\ encode_with (diff_code 1 e) [945; 65; 8364] [] = Ok (Some out) /\ out = [1; 65; 128] /\ decode 3 (diff_points e) one_byte out = Ok ([945; 65; 8364], true).
Proof. eexists _, _. split; [vm_compute; reflexivity|]. split; [vm_compute; reflexivity|]. split; [reflexivity|]. vm_compute. reflexivity. Qed.
