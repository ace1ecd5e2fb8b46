(** Proofs that sessions of the painter, done right, show what is wanted. *)
From Coq Require Import String QArith.
From Verif Require Import Base TokModel WriteModel TokProofs ObjSpec ChainProofs CMapSpec ContentsModel ContentsSpec PainterModel PainterSpec PainterTextProofs.
Local Open Scope Z_scope.

(** ** The painter and what is wanted *)
Definition gcache_ok (c : gcache) (g : gstate) (b : book) : Prop :=
  (g_ctm g = [] -> qs_eqb (mat_list (c_ctm c)) (mat_list identity) = true) /\
  (if b_width b then g_width g = millionths (c_width c) else (c_width c == 0)%Q) /\
  g_miter g = millionths (c_miter c) /\
  (if b_cap b then g_cap g = c_cap c else c_cap c = 2) /\
  g_join g = c_join c /\
  (c_intent c <> [] -> g_intent g = c_intent c) /\
  g_fill g = paint_of (c_fill c) /\ g_stroke g = paint_of (c_stroke c).
Definition tcache_ok (c : tcache) (t : tstate) : Prop :=
  t_font t = match c_font c with Some f => Some (f_name f, millionths (c_size c)) | None => None end /\
  t_scale t = millionths (c_scale c * 100) /\ t_char t = millionths (c_char c) /\ t_word t = millionths (c_wspace c) /\ c_mode c = 1 /\ t_mode t = 0 /\
  fits (c_scale c * 100) /\ fits (c_char c) /\ fits (c_wspace c) /\ match c_font c with Some f => plain_name (f_name f) /\ fits (c_size c) | None => True end.
(** what is in effect where nothing else is wanted *)
Definition lag (t e : tstate) : Prop :=
  (t_scale t = 100 * 10 ^ 6 -> t_scale e = 100 * 10 ^ 6) /\ (t_char t = 0 -> t_char e = 0) /\ (t_word t = 0 -> t_word e = 0) /\ t_mode e = 0.
Record Rel (x : Z) (w : wanted) (b : book) (p : painter) (m : mstate) : Prop := mk_rel
  { r_g : m_g m = m_g (w_m w); r_path : m_path m = m_path (w_m w); r_clip : m_clip m = None; r_wclip : m_clip (w_m w) = None;
    r_text : m_text m = m_text (w_m w); r_marks : m_marks m = m_marks (w_m w); r_events : m_events m = m_events (w_m w);
    r_stack : map fst (m_stack m) = map fst (m_stack (w_m w));
    r_canvas : p_canvas p = Some x; r_ptext : p_text p = negb (no_text (w_m w)); r_tab : p_tab p = w_tab w; r_font : c_font (p_tc p) = w_font w;
    r_gc : gcache_ok (p_gc p) (m_g (w_m w)) b; r_tc : tcache_ok (p_tc p) (m_t (w_m w));
    r_lag : lag (m_t (w_m w)) (m_t m); r_lags : Forall (fun e => lag (m_t (w_m w)) (snd e)) (m_stack m);
    r_sync : b_synced b = true -> m_t m = m_t (w_m w); r_open : no_text (w_m w) = false -> b_synced b = true }.
Definition goes (x : Z) (w : wanted) (b : book) (p : painter) (m : mstate) (k : call) : Prop :=
  exists p' t is m', step p k = Ok p' /\ p_tmp p' = p_tmp p ++ t /\ piece is t /\ execs is m = Some m' /\ Rel x (want w k) (book_step w b k) p' m'.

(** ** Opening the stream *)
Definition opened (p : painter) : painter :=
  if p_open p then p
  else match p_canvas p with None => p | Some x => set_open true (set_world (upd (p_world p) x (stream_for_appending (p_flags p) (p_world p x))) p) end.
Lemma check_opened p x : p_canvas p = Some x -> check_stream p = Ok (opened p).
Proof. unfold check_stream, opened. intros ->. destruct (p_open p); reflexivity. Qed.
Lemma opened_same p : p_canvas (opened p) = p_canvas p /\ p_tmp (opened p) = p_tmp p /\ p_gc (opened p) = p_gc p /\ p_tc (opened p) = p_tc p /\ p_tab (opened p) = p_tab p /\ p_text (opened p) = p_text p.
Proof. unfold opened. destruct (p_open p); [tauto|]. destruct (p_canvas p) eqn:E; cbn; rewrite ?E; tauto. Qed.
Lemma emit_opened t p x : p_canvas p = Some x -> emit t p = Ok (write_tmp t (opened p)).
Proof. intros E. unfold emit. rewrite (check_opened p x E). reflexivity. Qed.
(** the fields which matter *)
Definition same_p (p q : painter) : Prop :=
  p_canvas p = p_canvas q /\ p_gc p = p_gc q /\ p_tc p = p_tc q /\ p_tab p = p_tab q /\ p_text p = p_text q.
Lemma rel_same x w b p q m : same_p p q -> Rel x w b p m -> Rel x w b q m.
Proof. intros (A & B & C & D & E) []. constructor; rewrite <- ?A, <- ?B, <- ?C, <- ?D, <- ?E; assumption. Qed.
Lemma same_opened p t : same_p p (write_tmp t (opened p)).
Proof. destruct (opened_same p) as (A & B & C & D & E & F). unfold same_p, write_tmp. cbn [p_canvas p_gc p_tc p_tab p_text set_tmp]. rewrite A, C, D, E, F. tauto. Qed.
Lemma tmp_opened p t : p_tmp (write_tmp t (opened p)) = p_tmp p ++ t.
Proof. destruct (opened_same p) as (_ & B & _). unfold write_tmp. cbn [p_tmp set_tmp]. rewrite B. reflexivity. Qed.
(** a call which only writes *)
Lemma goes_emit x w b p m k t is m' : step p k = emit t p -> piece is t -> execs is m = Some m' -> p_canvas p = Some x ->
  Rel x (want w k) (book_step w b k) p m' -> goes x w b p m k.
Proof.
  intros S P E C R. exists (write_tmp t (opened p)), t, is, m'. rewrite S, (emit_opened t p x C). split; [reflexivity|]. split; [apply tmp_opened|]. split; [exact P|]. split; [exact E|].
  exact (rel_same x _ _ p _ m' (same_opened p t) R).
Qed.
(** a call which changes what the painter keeps, and then writes *)
Lemma goes_set x w b p m k q t is m' : step p k = emit t q -> p_tmp q = p_tmp p -> p_canvas q = Some x -> piece is t -> execs is m = Some m' ->
  Rel x (want w k) (book_step w b k) q m' -> goes x w b p m k.
Proof.
  intros S T C P E R. exists (write_tmp t (opened q)), t, is, m'. rewrite S, (emit_opened t q x C). split; [reflexivity|]. split; [rewrite tmp_opened, T; reflexivity|]. split; [exact P|]. split; [exact E|].
  exact (rel_same x _ _ q _ m' (same_opened q t) R).
Qed.
(** a call which writes nothing *)
Lemma goes_silent x w b p m k q : step p k = Ok q -> p_tmp q = p_tmp p -> Rel x (want w k) (book_step w b k) q m -> goes x w b p m k.
Proof. intros S T R. exists q, [], [], m. rewrite app_nil_r. split; [exact S|]. split; [exact T|]. split; [exact piece_nil|]. split; [reflexivity|exact R]. Qed.

(** ** Tactics *)
Ltac bool_ops := repeat match goal with |- context [beq ?a ?b] => let v := eval vm_compute in (beq a b) in change (beq a b) with v end; cbv iota.
Ltac flds := cbn [w_m w_font w_tab lift on_g on_t set_g set_t set_path set_mtext set_clip set_marks set_stack show m_g m_t m_stack m_path m_clip m_text m_marks m_events
  p_canvas p_tmp p_gc p_tc p_tab p_text p_open p_flags p_world set_gc set_tc set_text set_tmp set_tab b_width b_cap b_synced book_step want no_text end_path].
Lemma rel_no_path x w b p m : Rel x w b p m -> no_path m = no_path (w_m w).
Proof. intros []. unfold no_path. rewrite r_path0, r_clip0, r_wclip0. reflexivity. Qed.
Lemma rel_no_text x w b p m : Rel x w b p m -> no_text m = no_text (w_m w).
Proof. intros []. unfold no_text. rewrite r_text0. reflexivity. Qed.
Lemma rel_page x w b p m : Rel x w b p m -> page_level m = page_level (w_m w).
Proof. intros R. unfold page_level. rewrite (rel_no_path x w b p m R), (rel_no_text x w b p m R). reflexivity. Qed.
Lemma rel_open_path x w b p m : Rel x w b p m -> open_path m = open_path (w_m w).
Proof. intros R. unfold open_path. rewrite (rel_no_text x w b p m R). destruct R. rewrite r_clip0, r_wclip0. reflexivity. Qed.
Lemma rel_has_path x w b p m : Rel x w b p m -> has_path m = has_path (w_m w).
Proof. intros []. unfold has_path. rewrite r_path0. reflexivity. Qed.
Lemma rel_in_path x w b p m : Rel x w b p m -> in_path m = in_path (w_m w).
Proof. intros R. unfold in_path. rewrite (rel_open_path x w b p m R), (rel_has_path x w b p m R). reflexivity. Qed.
Lemma execs_one i m m' : exec i m = Some m' -> execs [i] m = Some m'.
Proof. cbn [execs]. intros ->. reflexivity. Qed.
Lemma execs_app l1 l2 m : execs (l1 ++ l2) m = match execs l1 m with Some m1 => execs l2 m1 | None => None end.
Proof. revert m. induction l1 as [|i l1 IH]; intros m; [reflexivity|]. cbn [app execs]. destruct (exec i m); [apply IH|reflexivity]. Qed.

(** ** Values which are already there *)
Lemma qs_eqb_map l : forall l', qs_eqb l l' = true -> map millionths l = map millionths l'.
Proof.
  induction l as [|a l IH]; intros [|b l'] H; try discriminate; [reflexivity|]. cbn [qs_eqb] in H. apply andb_true_iff in H as [H1 H2]. apply Qeq_bool_iff in H1.
  cbn [map]. rewrite (millionths_compat a b H1), (IH l' H2). reflexivity.
Qed.
Lemma color_eqb_paint a b : color_eqb a b = true -> paint_of a = paint_of b.
Proof.
  unfold color_eqb. destruct (color_parts a) as [[i n] l] eqn:EA. destruct (color_parts b) as [[j n'] l'] eqn:EB. intros H. apply andb_true_iff in H as [H H3]. apply andb_true_iff in H as [H1 H2].
  apply Z.eqb_eq in H1. apply beq_eq in H2. apply qs_eqb_map in H3. subst j n'.
  destruct a, b; cbn [color_parts] in EA, EB; inversion EA; inversion EB; subst; cbn [map] in H3; try discriminate; cbn [paint_of]; inversion H3; try reflexivity; try congruence.
Qed.
Lemma qs_eqb_iff l : forall l', qs_eqb l l' = true <-> Forall2 Qeq l l'.
Proof.
  induction l as [|a l IH]; intros [|b l']; cbn [qs_eqb]; split; intros H; try discriminate; try constructor; try (inversion H; fail).
  - apply andb_true_iff in H as [H1 H2]. apply Qeq_bool_iff. exact H1.
  - apply andb_true_iff in H as [H1 H2]. apply IH. exact H2.
  - inversion H; subst. apply andb_true_iff. split; [apply Qeq_bool_iff; assumption|apply IH; assumption].
Qed.
Lemma qs_eqb_trans a b c : qs_eqb a b = true -> qs_eqb a c = true -> qs_eqb c b = true.
Proof.
  rewrite !qs_eqb_iff. intros H. revert c. induction H as [|x y a b E H IH]; intros c H'; inversion H'; subst; constructor; [|apply IH; assumption].
  transitivity x; [symmetry; assumption|assumption].
Qed.
