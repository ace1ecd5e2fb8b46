(** Theorems on painting. *)
From Coq Require Import Lia String QArith Qabs Lqa.
From Verif Require Import Base TokModel WriteModel TokProofs ObjSpec ChainProofs ContentsModel ContentsSpec PainterModel PainterSpec PainterTextProofs PainterProofs PainterSimProofs PainterCallProofs PainterPageProofs PainterReadProofs PainterGeoProofs.
Local Open Scope Z_scope.

(** A blank page everywhere; a font *)
Definition blank_world : Z -> canvas := fun _ => mk_canvas false [] [].
Definition plain_flags : pflags := mk_pf false false false.
Definition case_font : font := mk_font 7 (bs "Ft7") (fun s => s) (fun _ => 10%Q) 12 9 (-3).
(** What the calls are meant to show *)
Definition wants (l : list call) : list event := m_events (w_m (fold_left want l new_wanted)).
(** A new painter on the page 1 *)
Definition paint_one (l : list call) : res painter := run (new_painter plain_flags blank_world) (KCanvas 1 :: l ++ [KFinish]).
Definition page_text (r : res painter) (x : Z) : list Z := match r with Ok p => joined (texts (cv_streams (p_world p x))) | _ => [] end.

(** ** C117: calls *)
(** Calls which are done right give a text of instructions, and these do what the calls mean: what is seen is the same, and so are the state of
    graphics, the path, the text and the marks at the end *)
Theorem C117_session fl w0 x l w' : session new_wanted new_book l w' ->
  exists p' is m, run (new_painter fl w0) (KCanvas x :: l) = Ok p' /\ program_text is (p_tmp p') /\ execs is begin_m = Some m /\
    m_events m = m_events (w_m w') /\ m_g m = m_g (w_m w') /\ m_path m = m_path (w_m w') /\ m_text m = m_text (w_m w') /\ m_marks m = m_marks (w_m w').
Proof.
  intros SS. destruct (session_goes x _ _ l w' SS _ _ (rel_new x fl w0)) as (p' & t & is & m & b & R & T & PI & E & RL).
  exists p', is, m. split; [exact R|]. rewrite new_canvas in T. cbn [p_tmp app] in T. rewrite T. split; [apply piece_program; exact PI|]. split; [exact E|].
  destruct RL. auto 6.
Qed.
Print Assumptions C117_session.

(** ** C118: pages *)
(** A page with at most one stream shows what it showed, and then (or before it, if it is to be prepended) what was painted *)
Theorem C118_page fl w0 x l w' old : cv_form (w0 x) = false -> (length (texts (cv_streams (w0 x))) <= 1)%nat -> page_shows (w0 x) old ->
  session new_wanted new_book l w' -> complete (w_m w') -> existsb draws l = true -> (fl_noprior fl = true -> texts (cv_streams (w0 x)) = []) ->
  (fl_prepend fl = true -> fl_nosave fl = false) ->
  exists p', run (new_painter fl w0) (KCanvas x :: l ++ [KFinish]) = Ok p' /\
    page_shows (p_world p' x) (if fl_prepend fl then m_events (w_m w') ++ old else old ++ m_events (w_m w')) /\ (forall y, y <> x -> p_world p' y = w0 y).
Proof. exact (page_painted fl w0 x l w' old). Qed.
Print Assumptions C118_page.
(** What a page shows is what its reader reads *)
Theorem C118_read c es : page_shows c es -> exists out m, (forall fuel, (length out < fuel)%nat ->
  read_all fuel (mk_world (fun _ _ => None) (fun _ => [])) (mk_ra false true None) (open_device (joined (texts (cv_streams c)))) new_content = Ok out) /\
  execs (instrs_of out) begin_m = Some m /\ m_events m = es.
Proof. intros (is & m & P & E & _ & V). destruct (program_read is _ P) as (out & R & I). exists out, m. split; [exact R|]. rewrite I. auto. Qed.
Print Assumptions C118_read.
(** Two painters after each other on a page without contents *)
Theorem C118_twice w0 x l1 w1 l2 w2 : cv_form (w0 x) = false -> cv_streams (w0 x) = [] ->
  session new_wanted new_book l1 w1 -> complete (w_m w1) -> existsb draws l1 = true -> session new_wanted new_book l2 w2 -> complete (w_m w2) -> existsb draws l2 = true ->
  exists p1 p2, run (new_painter plain_flags w0) (KCanvas x :: l1 ++ [KFinish]) = Ok p1 /\ run (new_painter plain_flags (p_world p1)) (KCanvas x :: l2 ++ [KFinish]) = Ok p2 /\
    page_shows (p_world p1 x) (m_events (w_m w1)) /\ page_shows (p_world p2 x) (m_events (w_m w1) ++ m_events (w_m w2)).
Proof.
  intros F S S1 C1 D1 S2 C2 D2. destruct (session_goes x _ _ l1 w1 S1 _ _ (rel_new x plain_flags w0)) as (p' & t & is & m' & b' & R & T & PI & E & RL).
  destruct (session_streams plain_flags w0 x l1 p' F (session_stays _ _ _ _ S1) D1 R) as (R' & TN & ST & OT).
  destruct (C118_page plain_flags w0 x l1 w1 []) as (p1 & P1 & P2 & _); [exact F|rewrite S; cbn; lia| |exact S1|exact C1|exact D1|discriminate|discriminate|].
  { exists [], begin_m. rewrite S. split; [apply (pt_end []); constructor|]. split; [reflexivity|]. split; [split; [reflexivity|split; reflexivity]|reflexivity]. }
  rewrite R' in P1. apply ok_inj in P1. subst p1. cbn [fl_prepend plain_flags app] in P2, ST.
  assert (PR : prior plain_flags (w0 x) = []) by (unfold prior; rewrite S; reflexivity). rewrite PR in ST.
  pose proof (kept_run l1 _ _ (session_stays _ _ _ _ S1) R) as K. rewrite new_canvas in K. pose proof (kp_form _ _ K x eq_refl) as KF. cbn [p_world] in KF.
  assert (F1 : cv_form (p_world (finish_drawing p') x) = false).
  { unfold finish_drawing, finish. destruct (p_open p'); [|cbn [set_open set_canvas_field set_tmp p_world]; congruence]. rewrite (r_canvas _ _ _ _ _ RL). cbn [set_open set_canvas_field set_tmp set_world p_world]. rewrite upd_same. unfold set_out. cbn [cv_form]. congruence. }
  destruct (C118_page plain_flags (p_world (finish_drawing p')) x l2 w2 (m_events (w_m w1))) as (p2 & P3 & P4 & _); [exact F1| |exact P2|exact S2|exact C2|exact D2|discriminate|discriminate|].
  { rewrite ST. cbn [app]. rewrite texts_own by (apply own_ne; exact TN). cbn. lia. }
  exists (finish_drawing p'), p2. split; [exact R'|]. split; [exact P3|]. split; [exact P2|exact P4].
Qed.
Print Assumptions C118_twice.
(** The third one: the end of the second stream and the beginning of the third have become one word *)
Definition again (r : res painter) (l : list call) : res painter := do p <- r; run (new_painter plain_flags (p_world p)) (KCanvas 1 :: l ++ [KFinish]).
Definition line (a : Q) : call := KDrawLine 0 0 a a.
Ltac refute := eexists; split; [vm_compute; reflexivity|]; intros; eapply (not_shown _ 60); [vm_compute; reflexivity|]; vm_compute; first [discriminate|exact I].
Theorem C118_third_refuted : exists p, again (again (paint_one [line 1]) [line 2]) [line 3] = Ok p /\ forall es, ~ page_shows (p_world p 1) es.
Proof. refute. Qed.
Print Assumptions C118_third_refuted.
(** A form which had contents shows them twice; and not at all if nothing is to be saved around them *)
Definition form_world (t : list Z) : Z -> canvas := fun _ => mk_canvas true [Some t] [].
Definition old_line : list Z := bs "0 0 m 9 9 l S" ++ [10].
Definition old_events : list event := wants [line 9].
Theorem C118_form_refuted : exists p, run (new_painter plain_flags (form_world old_line)) [KCanvas 1; line 1; KFinish] = Ok p /\
  ~ page_shows (p_world p 1) (old_events ++ wants [line 1]) /\ reading 60 (joined (texts (cv_streams (p_world p 1)))) <> Fuel /\
  (match reading 60 (joined (texts (cv_streams (p_world p 1)))) with Ok out => option_map m_events (execs (instrs_of out) begin_m) | _ => None end) = Some (old_events ++ old_events ++ wants [line 1]).
Proof.
  eexists; split; [vm_compute; reflexivity|]. split; [eapply (not_shown _ 60); [vm_compute; reflexivity|]; vm_compute; discriminate|]. split; [vm_compute; discriminate|vm_compute; reflexivity].
Qed.
Print Assumptions C118_form_refuted.
Theorem C118_form_lost_refuted : exists p, run (new_painter (mk_pf false true false) (form_world old_line)) [KCanvas 1; line 1; KFinish] = Ok p /\
  (match reading 60 (joined (texts (cv_streams (p_world p 1)))) with Ok out => option_map m_events (execs (instrs_of out) begin_m) | _ => None end) = Some (wants [line 1]).
Proof. eexists. split; [vm_compute; reflexivity|]. vm_compute. reflexivity. Qed.
Print Assumptions C118_form_lost_refuted.

(** ** C119: resources *)
(** Whatever is called on one canvas: when it is finished every name of a font, a colour space, an object and a state of graphics which was
    asked for is in the resources of the canvas, and what was there is there *)
Theorem C119_resources fl w0 x l p' : forallb stays l = true -> (forall f g s s', In (KFont f s) l -> In (KFont g s') l -> f_id f = f_id g -> f = g) ->
  run (new_painter fl w0) (KCanvas x :: l ++ [KFinish]) = Ok p' ->
  (forall k key, In k l -> In key (needs k) -> has_resource (p_world p' x) key) /\ (forall key, has_resource (w0 x) key -> has_resource (p_world p' x) key).
Proof.
  intros S SF H. cbn [run step app bind] in H. rewrite run_app in H. apply bind_ok in H as (q & H1 & H2). cbn [run step bind] in H2. apply ok_inj in H2. subst p'.
  pose (fs := flat_map (fun k => match k with KFont f _ => [f] | _ => [] end) l).
  assert (FS : forall f, In f fs <-> exists s, In (KFont f s) l).
  { intros f. unfold fs. rewrite in_flat_map. split.
    - intros (k & A & B). destruct k; cbn in B; try tauto. destruct B as [<-|[]]. eauto.
    - intros (s & A). exists (KFont f s). split; [exact A|left; reflexivity]. }
  assert (SF' : same_fonts fs) by (intros f g A B E; apply FS in A as (s & A); apply FS in B as (s' & B); exact (SF f g s s' A B E)).
  assert (RO : res_ok fs x (set_canvas x (new_painter fl w0))). { constructor; [reflexivity|discriminate|intros ? []|intros ? []]. }
  destruct (res_run fs x l SF' ltac:(intros f s A; apply FS; eauto) S _ _ RO H1) as [RQ N]. pose proof (kept_run l _ _ S H1) as K. rewrite new_canvas in K.
  assert (R : cv_res (p_world (finish_drawing q) x) = cv_res (p_world q x)).
  { unfold finish_drawing, finish. rewrite (ro_canvas _ _ _ RQ). destruct (p_open q); cbn [set_open set_canvas_field set_tmp set_world p_world]; [|reflexivity]. rewrite upd_same. reflexivity. }
  unfold has_resource in *. rewrite R. split; [exact N|]. intros key A. exact (kp_keys _ _ K x eq_refl key A).
Qed.
Print Assumptions C119_resources.
(** On a second canvas the font is taken as set: its text is written with a name which is not in its resources. What is written in a state
    which the second canvas does not have is not seen as it should be *)
Theorem C119_second_refuted : exists p, run (new_painter plain_flags blank_world)
    [KCanvas 1; KFont case_font 12; KDrawText (bs "a") 0 0; KCanvas 2; KFont case_font 12; KDrawText (bs "b") 0 0; KFinish] = Ok p /\
  has_resource (p_world p 1) (bs "Font", bs "Ft7") /\ cv_res (p_world p 2) = [] /\
  (match reading 60 (joined (texts (cv_streams (p_world p 2)))) with Ok out => option_map m_events (execs (instrs_of out) begin_m) | _ => None end) =
  Some (wants [KFont case_font 12; KDrawText (bs "b") 0 0]).
Proof. eexists. split; [vm_compute; reflexivity|]. split; [left; reflexivity|]. split; vm_compute; reflexivity. Qed.
Print Assumptions C119_second_refuted.
Theorem C119_state_refuted : exists p, run (new_painter plain_flags blank_world) [KCanvas 1; KWidth 5; line 1; KCanvas 2; KWidth 5; line 1; KFinish] = Ok p /\
  ~ page_shows (p_world p 2) (wants [KWidth 5; line 1]).
Proof. refute. Qed.
Print Assumptions C119_state_refuted.
(** Nor can texts be drawn on a second canvas if one was left open on the first *)
Theorem C119_open_refuted : run (new_painter plain_flags blank_world) [KCanvas 1; KBegin 0 0; KFinish; KCanvas 2; KBegin 0 0] = Err EInternalLogic.
Proof. reflexivity. Qed.
Print Assumptions C119_open_refuted.

(** ** C120: calls which are not done right *)
(** The width after Restore; the width 0 and the cap Square of a new page; a second matrix *)
Theorem C120_restore_refuted : exists p, paint_one [KWidth 3; KSave; KWidth 5; KRestore; KWidth 5; line 1] = Ok p /\ ~ page_shows (p_world p 1) (wants [KWidth 3; KSave; KWidth 5; KRestore; KWidth 5; line 1]).
Proof. refute. Qed.
Print Assumptions C120_restore_refuted.
Theorem C120_width_refuted : exists p, paint_one [KWidth 0; line 1] = Ok p /\ ~ page_shows (p_world p 1) (wants [KWidth 0; line 1]).
Proof. refute. Qed.
Print Assumptions C120_width_refuted.
Theorem C120_cap_refuted : exists p, paint_one [KCap 2; line 1] = Ok p /\ ~ page_shows (p_world p 1) (wants [KCap 2; line 1]).
Proof. refute. Qed.
Print Assumptions C120_cap_refuted.
Definition scaling (a : Q) : call := KMatrix (a, 0, 0, a, 0, 0)%Q.
Theorem C120_matrix_refuted : exists p, paint_one [scaling 2; scaling 3; line 1] = Ok p /\ ~ page_shows (p_world p 1) (wants [scaling 2; scaling 3; line 1]).
Proof. refute. Qed.
Print Assumptions C120_matrix_refuted.
(** A text which is begun has no font; a spacing set back to 0 stays; the modes are one too high, and the last one is none; a text of lines
    saves the state inside a text; tabs stay after the spaces *)
Theorem C120_begin_refuted : exists p, paint_one [KFont case_font 12; KBegin 1 2; KAddText (bs "x"); KEnd] = Ok p /\ forall es, ~ page_shows (p_world p 1) es.
Proof. refute. Qed.
Print Assumptions C120_begin_refuted.
Definition spaced : list call := [KFont case_font 12; KChar 2; KDrawText (bs "a") 0 0; KChar 0; KDrawText (bs "b") 0 0].
Theorem C120_spacing_refuted : exists p, paint_one spaced = Ok p /\ ~ page_shows (p_world p 1) (wants spaced).
Proof. refute. Qed.
Print Assumptions C120_spacing_refuted.
Definition in_mode (z : Z) : list call := [KFont case_font 12; KMode z; KDrawText (bs "a") 0 0].
Theorem C120_mode_refuted : exists p, paint_one (in_mode 2) = Ok p /\ ~ page_shows (p_world p 1) (wants (in_mode 2)).
Proof. refute. Qed.
Print Assumptions C120_mode_refuted.
Theorem C120_last_mode_refuted : exists p, paint_one (in_mode 8) = Ok p /\ forall es, ~ page_shows (p_world p 1) es.
Proof. refute. Qed.
Print Assumptions C120_last_mode_refuted.
Theorem C120_lines_refuted : exists p, paint_one [KFont case_font 12; KMultiline (bs "a") 0 0 10 10 0 0 true] = Ok p /\ forall es, ~ page_shows (p_world p 1) es.
Proof. refute. Qed.
Print Assumptions C120_lines_refuted.
Definition tabbed : list call := [KFont case_font 12; KDrawText [65; 9; 66] 0 0].
Theorem C120_tab_refuted : exists p, paint_one tabbed = Ok p /\ ~ page_shows (p_world p 1) (wants tabbed).
Proof. refute. Qed.
Print Assumptions C120_tab_refuted.
(** However the point was reached by moves, lines and curves, a horizontal line goes to the height 0 and a vertical one to the left edge *)
Definition plain_path (k : call) : bool := match k with KMove _ _ | KLine _ _ | KCurve _ _ _ _ _ _ => true | _ => false end.
Lemma points_kept p k p' : plain_path k = true -> step p k = Ok p' -> p_l3 p' = p_l3 p.
Proof.
  destruct k; try discriminate; intros _ H; cbn [step] in H; unfold move_to, line_to, curve_to, emit, check_stream in H;
    (destruct (p_open p); [apply ok_inj in H; subst; reflexivity|]; destruct (p_canvas p); [apply ok_inj in H; subst; reflexivity|discriminate]).
Qed.
Theorem C120_points_refuted fl w0 x l p' a : forallb plain_path l = true -> run (new_painter fl w0) (KCanvas x :: l) = Ok p' ->
  step p' (KHLine a) = step p' (KLine a 0) /\ step p' (KVLine a) = step p' (KLine 0 a).
Proof.
  intros F H. cbn [run step bind] in H. assert (E : p_l3 (set_canvas x (new_painter fl w0)) = (0, 0)%Q) by reflexivity. revert F H E. generalize (set_canvas x (new_painter fl w0)) as p.
  induction l as [|k l IH]; intros p F H E.
  - apply ok_inj in H. subst. cbn [step]. unfold hline_to, vline_to. rewrite E. split; reflexivity.
  - cbn [forallb] in F. apply andb_true_iff in F as [F1 F2]. cbn [run] in H. apply bind_ok in H as (q & H1 & H2). apply (IH q F2 H2). rewrite (points_kept p k q F1 H1). exact E.
Qed.
Print Assumptions C120_points_refuted.
(** Corners with a radius below one unit are square *)
Theorem C120_corner_refuted p x y w h rx ry : (Qabs rx < 1)%Q -> (Qabs ry < 1)%Q -> step p (KRect x y w h rx ry) = step p (KRect x y w h 0 0).
Proof.
  intros A B. cbn [step]. unfold rectangle. assert (T : forall q, (Qabs q < 1)%Q -> trunc q = 0).
  { intros [n d] H. unfold trunc, Qlt in *. cbn in *. apply Z.quot_small_iff; lia. }
  rewrite (T _ A), (T _ B). reflexivity.
Qed.
Print Assumptions C120_corner_refuted.

(** ** C121: shapes *)
(** The points of a circle are as far from its centre as they should be: the square of the distance is not off by more than six in ten
    thousand. So for an ellipse, in units of its half axes *)
Theorem C121_circle x y r px py cur : traced cur (path_of (KCircle x y r)) px py ->
  (r * r * (1 - (1 # 10000)) <= (px - x) * (px - x) + (py - y) * (py - y) <= r * r * (1 + (6 # 10000)))%Q.
Proof. exact (circle_near x y r px py cur). Qed.
Print Assumptions C121_circle.
Theorem C121_ellipse x y w h px py X Y cur : traced cur (path_of (KEllipse x y w h)) px py -> (~ w == 0)%Q -> (~ h == 0)%Q ->
  (px - (x + w / 2) == X * (w / 2))%Q -> (py - (y + h / 2) == Y * (h / 2))%Q -> (1 - (1 # 10000) <= X * X + Y * Y <= 1 + (6 # 10000))%Q.
Proof.
  intros T W H A B. destruct (ellipse_near x y w h px py cur T X Y A B W H) as [L U]. split; lra.
Qed.
Print Assumptions C121_ellipse.
(** A rectangle with round corners stays in the rectangle *)
Theorem C121_round x y w h rx ry px py cur : (0 <= rx)%Q -> (0 <= ry)%Q -> (2 * rx <= w)%Q -> (2 * ry <= h)%Q -> traced cur (path_of (KRect x y w h rx ry)) px py ->
  (x <= px <= x + w)%Q /\ (y <= py <= y + h)%Q.
Proof. exact (round_inside x y w h rx ry px py cur). Qed.
Print Assumptions C121_round.
(** A smooth quadratic curve is the curve of the second degree from the last point, with the last control point reflected at it *)
Theorem C121_smooth p x y : exists a b c d, step p (KSmoothQuad x y) = (do _ <- Ok tt; curve_to a b c d x y (set_points (x, y) (x, y) (2 * fst (p_lc p) - fst (p_lr p), 2 * snd (p_lc p) - snd (p_lr p))%Q p)) /\
  forall t, (at3 (fst (p_lc p)) a c x t == at2 (fst (p_lc p)) (2 * fst (p_lc p) - fst (p_lr p)) x t)%Q /\
            (at3 (snd (p_lc p)) b d y t == at2 (snd (p_lc p)) (2 * snd (p_lc p) - snd (p_lr p)) y t)%Q.
Proof. do 4 eexists. split; [reflexivity|]. intros t. unfold at3, at2, third. split; ring. Qed.
Print Assumptions C121_smooth.
(** A quadratic curve is not the one with the given control point *)
Theorem C121_quad_refuted : exists a b c d, (forall fl w0, step (set_canvas 1 (new_painter fl w0)) (KQuad 0 9 0 0) = curve_to a b c d 0 0 (set_points (0, 0)%Q (0, 0)%Q (c, d) (set_canvas 1 (new_painter fl w0)))) /\
  ~ (at3 0 b d 0 (1 # 2) == at2 0 9 0 (1 # 2))%Q.
Proof. exists (third (0 + 2 * 0)), (third (0 + 2 * 9)), (third (0 + 2 * third (0 + 2 * 0))), (third (0 + 2 * third (0 + 2 * 9))). split; [intros fl w0; reflexivity|]. vm_compute. discriminate. Qed.
Print Assumptions C121_quad_refuted.

(** ** Cases *)
Definition case_calls : list call :=
  [KWidth (3 # 2); KStroke (CRgb 1 0 (1 # 3)); KSave; KMove 10 10; KLine 20 (41 # 2); KClose; KPaint; KRestore; KFont case_font 12; KDrawText (bs "ab") 7 8;
   KBegin 1 2; KAddText (bs "c"); KEnd; KXObject (bs "XOb5") 5 1 2 3 4; KBeginMark (bs "Span"); KEndMark].
Definition case_wanted : wanted := fold_left want case_calls new_wanted.
Lemma fits_z z : Z.abs z < 10 ^ 12 -> fits (z # 1).
Proof.
  intros H. assert (M : millionths (z # 1) = z * 10 ^ 6).
  { unfold millionths. cbn [Qnum Qden]. replace ((2 * (z * 10 ^ 6) + 1) / (2 * 1)) with (z * 10 ^ 6) by (apply (Z.div_unique _ _ _ 1); lia). replace (2 * (z * 10 ^ 6) * 1 =? 2 * (z * 10 ^ 6) + 1) with false by lia. reflexivity. }
  unfold fits. rewrite M. cbn [Qnum]. lia.
Qed.
Lemma fits_b q : (Z.abs (millionths q) <? 10 ^ 18) && ((0 <=? Qnum q) || negb (millionths q =? 0)) = true -> fits q.
Proof. intros H. apply andb_true_iff in H as [A B]. apply orb_true_iff in B. split; [lia|]. intros N. destruct B as [B|B]; [lia|]. apply negb_true_iff in B. lia. Qed.
Lemma name_b n : forallb (fun c => is_regular c && is_printable c && negb (c =? 35) && (0 <? c) && (c <? 256)) n && negb (beq n []) && (length n <=? 100)%nat = true -> plain_name n.
Proof.
  intros H. apply andb_true_iff in H as [H L]. apply andb_true_iff in H as [F N]. split; [destruct n; [discriminate|discriminate]|]. split.
  - apply Forall_forall. intros c I. rewrite forallb_forall in F. specialize (F c I). rewrite !andb_true_iff, negb_true_iff in F. destruct F as ((((F1 & F2) & F3) & F4) & F5). split; [exact F1|]. split; [exact F2|]. lia.
  - apply Nat.leb_le in L. lia.
Qed.
Ltac fit := repeat constructor; try (apply fits_b; vm_compute; reflexivity).
Ltac calls := first [apply ss_end|apply ss_call; [cbn [right]|calls]].
Lemma case_session : session new_wanted new_book case_calls case_wanted.
Proof.
  unfold case_calls. calls.
  all: try reflexivity.
  all: repeat match goal with
       | |- _ /\ _ => split
       | |- fits _ => apply fits_b; vm_compute; reflexivity
       | |- Forall fits _ => cbn [flat_map seg_numbers path_of color_numbers app]; repeat constructor
       | |- plain_name _ => apply name_b; vm_compute; reflexivity
       | |- ~ In _ _ => cbn; intuition discriminate
       | |- exists f : font, _ => exists case_font
       | |- bytes_ok _ => cbn; repeat constructor; lia
       | |- forall _, _ => intros; discriminate
       | |- _ <> _ => discriminate
       end; try reflexivity; try (vm_compute; discriminate).
  do 2 eexists. reflexivity.
Qed.
Example C117_case : exists p' is m, run (new_painter plain_flags blank_world) (KCanvas 1 :: case_calls) = Ok p' /\ program_text is (p_tmp p') /\ execs is begin_m = Some m /\
  m_events m = m_events (w_m case_wanted) /\ length (m_events m) = 4%nat.
Proof.
  destruct (C117_session plain_flags blank_world 1 case_calls case_wanted case_session) as (p' & is & m & A & B & C & D & _). exists p', is, m. rewrite D. repeat (split; [first [exact A|exact B|exact C|reflexivity]|]). reflexivity.
Qed.
Lemma blank_shows : page_shows (blank_world 1) [].
Proof. exists [], begin_m. split; [apply (pt_end []); constructor|]. split; [reflexivity|]. split; [split; [reflexivity|split; reflexivity]|reflexivity]. Qed.
Lemma case_complete : complete (w_m case_wanted).
Proof. split; [reflexivity|split; reflexivity]. Qed.
Example C118_case : exists p1 p2, run (new_painter plain_flags blank_world) (KCanvas 1 :: case_calls ++ [KFinish]) = Ok p1 /\
  run (new_painter plain_flags (p_world p1)) (KCanvas 1 :: case_calls ++ [KFinish]) = Ok p2 /\
  page_shows (p_world p1 1) (m_events (w_m case_wanted)) /\ page_shows (p_world p2 1) (m_events (w_m case_wanted) ++ m_events (w_m case_wanted)).
Proof. exact (C118_twice blank_world 1 case_calls case_wanted case_calls case_wanted eq_refl eq_refl case_session case_complete eq_refl case_session case_complete eq_refl). Qed.
Example C119_case : exists p', paint_one case_calls = Ok p' /\ map fst (cv_res (p_world p' 1)) = [(bs "XObject", bs "XOb5"); (bs "Font", bs "Ft7")].
Proof. eexists. split; [vm_compute; reflexivity|]. vm_compute. reflexivity. Qed.
Example C120_case : page_text (paint_one [KWidth 3; KSave; KWidth 5; KRestore; KWidth 5; line 1]) 1 =
  bs "q" ++ nl ++ bs "3 w" ++ nl ++ bs "q" ++ nl ++ bs "5 w" ++ nl ++ bs "Q" ++ nl ++ bs "0 0 m 1 1 l S" ++ nl ++ bs "Q" ++ nl /\
  page_text (paint_one [KStyle 3 [] true 2 false; line 1]) 1 = bs "q" ++ nl ++ bs "[0 6 2 2 2 0] 0 d" ++ nl ++ bs "0 0 m 1 1 l S" ++ nl ++ bs "Q" ++ nl.
Proof. split; reflexivity. Qed.
Example C121_case : traced (0, 0)%Q (path_of (KCircle 1 2 8)) (at3 9 9 (1 + kappa * 8) 1 (1 # 2)) (at3 2 (2 + kappa * 8) 10 10 (1 # 2)) /\
  (32 - (1 # 1000) <= (at3 9 9 (1 + kappa * 8) 1 (1 # 2) - 1) * (at3 9 9 (1 + kappa * 8) 1 (1 # 2) - 1) <= 32)%Q.
Proof.
  split.
  - cbn [path_of circle_path traced curve from fst snd]. left. exists (1 # 2). split; [split; discriminate|]. split; reflexivity.
  - split; vm_compute; discriminate.
Qed.
