(** Proofs for the calls of texts and objects, and for sessions. *)
From Coq Require Import String QArith.
From Verif Require Import Base TokModel WriteModel TokProofs ObjSpec ChainProofs CMapSpec ContentsModel ContentsSpec PainterModel PainterSpec PainterTextProofs PainterProofs PainterSimProofs.
Local Open Scope Z_scope.

Ltac tfs := cbn [t_font t_scale t_char t_word t_mode with_font with_scale with_char with_word with_mode c_font c_size c_scale c_char c_wspace c_mode].
Lemma in_text_no t p : p_text p = false -> in_text t p = Ok p.
Proof. unfold in_text. intros ->. reflexivity. Qed.
Lemma in_text_yes t p : p_text p = true -> in_text t p = t p.
Proof. unfold in_text. intros ->. reflexivity. Qed.
Lemma piece_font n s : plain_name n -> fits s -> exists o, number o = Some (millionths s) /\ piece [IOp [OName n; o] (bs "Tf")] (bs "/" ++ n ++ bs " " ++ num_text s ++ bs " Tf" ++ nl).
Proof.
  intros P F. destruct (num_value s F) as (o & W & WF & IN & N). exists o. split; [exact N|].
  replace (bs "/" ++ n ++ bs " " ++ num_text s ++ bs " Tf" ++ nl) with (((47 :: n) ++ [32] ++ num_text s ++ [32] ++ []) ++ bs "Tf" ++ [10]) by (cbn [app]; rewrite <- !app_assoc; cbn [app]; rewrite <- !app_assoc; reflexivity).
  apply piece_word; [|reflexivity|reflexivity]. apply vals_cons; [intros k; apply value_name; [exact P|apply stops32]|]. apply vals_cons; [|exact vals_nil].
  intros k. exists (mk_wf true true). rewrite IN. split; [left; reflexivity|]. split; [exact W|]. split; [exact WF|]. split; [lia|intros _; apply stops32].
Qed.
Lemma untab_none n s : ~ In 9 s -> untab n s = s.
Proof.
  induction s as [|c s IH]; intros H; [reflexivity|]. unfold untab in *. cbn [flat_map]. rewrite IH by (intros X; apply H; right; exact X).
  destruct (c =? 9) eqn:E; [apply Z.eqb_eq in E; exfalso; apply H; left; exact E|reflexivity].
Qed.
Lemma expand_none n s : ~ In 9 s -> expand_tabs n s = s.
Proof.
  intros H. unfold expand_tabs. destruct (existsb (Z.eqb 9) s) eqn:E; [|reflexivity]. apply existsb_exists in E as (c & I & E). apply Z.eqb_eq in E. subst c. contradiction.
Qed.
Section Sim.
Variables (x : Z) (w : wanted) (b : book) (p : painter) (m : mstate).
Hypothesis R : Rel x w b p m.
Lemma text_p : p_text p = negb (no_text (w_m w)).
Proof. exact (r_ptext x w b p m R). Qed.

(** ** Text state *)
(** a value of the text state: kept out of a text, written in a text *)
Lemma goes_value k q tc t (f : tstate -> tstate) i : (p_text p = false -> step p k = Ok q) -> (p_text p = true -> step p k = emit t q) ->
  p_canvas q = Some x -> p_tmp q = p_tmp p -> p_gc q = p_gc p -> p_tc q = tc -> p_tab q = p_tab p -> p_text q = p_text p -> piece [i] t -> c_font tc = w_font (want w k) ->
  (no_path m = true -> exec i m = Some (set_t (f (m_t m)) m)) -> no_path (w_m w) = true ->
  w_m (want w k) = set_t (f (m_t (w_m w))) (w_m w) -> w_tab (want w k) = w_tab w -> book_step w b k = mk_b (b_width b) (b_cap b) (b_synced b && negb (no_text (w_m w))) ->
  tcache_ok tc (f (m_t (w_m w))) -> (forall e, lag (m_t (w_m w)) e -> lag (f (m_t (w_m w))) e) -> (forall t e, lag t e -> lag (f (m_t (w_m w))) e -> lag (f t) (f e)) -> goes x w b p m k.
Proof.
  facts R. intros S1 S2 Q1 Q2 Q3 Q4 Q5 Q6 P C E NPW WM WT BS TC L1 L2. destruct (no_text (w_m w)) eqn:NO.
  - apply (goes_silent x w b p m k q); [apply S1; rewrite text_p, NO; reflexivity|exact Q2|]. rewrite BS. pose proof R as [].
    constructor; rewrite ?WM, ?WT, ?Q3, ?Q4, ?Q5, ?Q6; flds; auto.
    + revert r_lags. apply Forall_impl. intros e. apply L1.
    + rewrite andb_false_r. discriminate.
    + change (no_text (w_m w) = false -> b_synced b && negb true = true). congruence.
  - apply (goes_set x w b p m k q t [i] (set_t (f (m_t m)) m)); [apply S2; rewrite text_p, NO; reflexivity|exact Q2|exact Q1|exact P|apply execs_one; apply E; rewrite NP; exact NPW|].
    rewrite BS. pose proof R as []. constructor; rewrite ?WM, ?WT, ?Q3, ?Q4, ?Q5, ?Q6; flds; auto.
    + revert r_lags. apply Forall_impl. intros e. apply L1.
    + rewrite andb_true_r. intros B. rewrite (r_sync B). reflexivity.
    + intros _. rewrite (r_open NO). reflexivity.
Qed.
Lemma rel_synced_same : forall b', b_width b' = b_width b -> b_cap b' = b_cap b -> b_synced b' = b_synced b && negb (no_text (w_m w)) -> Rel x w b' p m.
Proof.
  intros [bw bc bsy] B1 B2 B3. cbn in B1, B2, B3. subst. pose proof R as []. constructor; auto; cbn [b_synced].
  - intros H. apply andb_true_iff in H as [H _]. auto.
  - intros H. rewrite H, r_open by exact H. reflexivity.
Qed.
Lemma goes_font f s : right w b (KFont f s) -> goes x w b p m (KFont f s).
Proof.
  facts R. intros (H & F & PN & SAME). pose proof (r_tc x w b p m R) as TC. pose proof (r_font x w b p m R) as RF. pose proof TC as (T1 & T2 & T3 & T4 & T5 & T6 & T7 & T8 & T9 & T10).
  destruct (match c_font (p_tc p) with Some g => f_id g =? f_id f | None => false end && Qeq_bool (c_size (p_tc p)) s) eqn:E.
  - apply (goes_silent x w b p m (KFont f s) p); [cbn [step]; unfold set_font; rewrite E; reflexivity|reflexivity|]. apply andb_true_iff in E as [E1 E2]. apply Qeq_bool_iff in E2.
    destruct (c_font (p_tc p)) as [f'|] eqn:CF; [|discriminate]. apply Z.eqb_eq in E1. assert (f' = f) by (apply SAME; [symmetry; exact RF|exact E1]). subst f'.
    rewrite (millionths_compat _ _ E2) in T1.
    replace (want w (KFont f s)) with w; [apply rel_synced_same; reflexivity|].
    cbn [want]. rewrite <- T1, RF. destruct w as [wm wf wt]. cbn. destruct wm as [g t]. cbn. destruct t. reflexivity.
  - set (tc := mk_tc (Some f) s (c_scale (p_tc p)) (c_char (p_tc p)) (c_wspace (p_tc p)) (c_mode (p_tc p))).
    destruct (piece_font (f_name f) s PN F) as (o & N & P).
    apply (goes_value (KFont f s) (with_res (bs "Font") (f_name f) (f_id f) x (set_tc tc p)) tc (bs "/" ++ f_name f ++ bs " " ++ num_text s ++ bs " Tf" ++ nl)
      (with_font (Some (f_name f, millionths s))) (IOp [OName (f_name f); o] (bs "Tf"))); try reflexivity; auto.
    + intros T. cbn [step]. unfold set_font. rewrite E. rewrite (add_with _ _ _ x); [|exact CV]. cbn [bind]. apply in_text_no. exact T.
    + intros T. cbn [step]. unfold set_font. rewrite E. rewrite (add_with _ _ _ x); [|exact CV]. cbn [bind]. apply in_text_yes. exact T.
    + intros HN. cbn [exec]. unfold exec_op. bool_ops. rewrite N, HN. reflexivity.
    + unfold tcache_ok. subst tc. tfs. rewrite T2, T3, T4, T6. repeat match goal with |- _ /\ _ => split end; auto.
Qed.
Lemma goes_scale q : right w b (KScale q) -> goes x w b p m (KScale q).
Proof.
  facts R. intros (H & F & BACK). pose proof (r_tc x w b p m R) as TC. pose proof (r_font x w b p m R) as RF. pose proof TC as (T1 & T2 & T3 & T4 & T5 & T6 & T7 & T8 & T9 & T10).
  destruct (Qeq_bool (c_scale (p_tc p)) q) eqn:E.
  - apply (goes_silent x w b p m (KScale q) p); [cbn [step]; unfold set_scale; rewrite E; reflexivity|reflexivity|]. apply Qeq_bool_iff in E.
    assert (E' : (c_scale (p_tc p) * 100 == q * 100)%Q) by (rewrite E; reflexivity). rewrite (millionths_compat _ _ E') in T2.
    replace (want w (KScale q)) with w; [apply rel_synced_same; reflexivity|].
    cbn [want]. unfold on_t, lift. rewrite <- T2. destruct w as [wm wf wt]. cbn. destruct wm as [g t]. cbn. destruct t. reflexivity.
  - set (tc := mk_tc (c_font (p_tc p)) (c_size (p_tc p)) q (c_char (p_tc p)) (c_wspace (p_tc p)) (c_mode (p_tc p))).
    destruct (piece_nums [q * 100]%Q (bs "Tz") 10 ltac:(auto) eq_refl eq_refl) as (os & P & N). cbn [map] in N.
    apply (goes_value (KScale q) (set_tc tc p) tc (op_line [q * 100]%Q "Tz") (with_scale (millionths (q * 100))) (IOp os (bs "Tz"))); try reflexivity; auto.
    + intros T. cbn [step]. unfold set_scale. rewrite E. apply in_text_no. exact T.
    + intros T. cbn [step]. unfold set_scale. rewrite E. apply in_text_yes. exact T.
    + intros HN. cbn [exec]. unfold exec_op. bool_ops. rewrite N, HN. reflexivity.
    + unfold tcache_ok. subst tc. tfs. rewrite T1, T3, T4, T6. repeat match goal with |- _ /\ _ => split end; auto.
    + intros e (L1 & L2). split; [|exact L2]. tfs. intros Q0. apply L1. apply BACK. exact Q0.
    + intros t e (L1 & L2) _. split; [tfs; auto|exact L2].
Qed.
Lemma goes_char q : right w b (KChar q) -> goes x w b p m (KChar q).
Proof.
  facts R. intros (H & F & BACK). pose proof (r_tc x w b p m R) as TC. pose proof (r_font x w b p m R) as RF. pose proof TC as (T1 & T2 & T3 & T4 & T5 & T6 & T7 & T8 & T9 & T10).
  destruct (Qeq_bool (c_char (p_tc p)) q) eqn:E.
  - apply (goes_silent x w b p m (KChar q) p); [cbn [step]; unfold set_char; rewrite E; reflexivity|reflexivity|]. apply Qeq_bool_iff in E. rewrite (millionths_compat _ _ E) in T3.
    replace (want w (KChar q)) with w; [apply rel_synced_same; reflexivity|].
    cbn [want]. unfold on_t, lift. rewrite <- T3. destruct w as [wm wf wt]. cbn. destruct wm as [g t]. cbn. destruct t. reflexivity.
  - set (tc := mk_tc (c_font (p_tc p)) (c_size (p_tc p)) (c_scale (p_tc p)) q (c_wspace (p_tc p)) (c_mode (p_tc p))).
    destruct (piece_nums [q] (bs "Tc") 10 ltac:(auto) eq_refl eq_refl) as (os & P & N). cbn [map] in N.
    apply (goes_value (KChar q) (set_tc tc p) tc (op_line [q] "Tc") (with_char (millionths q)) (IOp os (bs "Tc"))); try reflexivity; auto.
    + intros T. cbn [step]. unfold set_char. rewrite E. apply in_text_no. exact T.
    + intros T. cbn [step]. unfold set_char. rewrite E. apply in_text_yes. exact T.
    + intros HN. cbn [exec]. unfold exec_op. bool_ops. rewrite N, HN. reflexivity.
    + unfold tcache_ok. subst tc. tfs. rewrite T1, T2, T4, T6. repeat match goal with |- _ /\ _ => split end; auto.
    + intros e (L1 & L2 & L3). split; [exact L1|]. split; [|exact L3]. tfs. intros Q0. apply L2. apply BACK. exact Q0.
    + intros t e (L1 & L2 & L3) _. split; [exact L1|]. split; [tfs; auto|exact L3].
Qed.
Lemma goes_word q : right w b (KWord q) -> goes x w b p m (KWord q).
Proof.
  facts R. intros (H & F & BACK). pose proof (r_tc x w b p m R) as TC. pose proof (r_font x w b p m R) as RF. pose proof TC as (T1 & T2 & T3 & T4 & T5 & T6 & T7 & T8 & T9 & T10).
  destruct (Qeq_bool (c_wspace (p_tc p)) q) eqn:E.
  - apply (goes_silent x w b p m (KWord q) p); [cbn [step]; unfold set_wspace; rewrite E; reflexivity|reflexivity|]. apply Qeq_bool_iff in E. rewrite (millionths_compat _ _ E) in T4.
    replace (want w (KWord q)) with w; [apply rel_synced_same; reflexivity|].
    cbn [want]. unfold on_t, lift. rewrite <- T4. destruct w as [wm wf wt]. cbn. destruct wm as [g t]. cbn. destruct t. reflexivity.
  - set (tc := mk_tc (c_font (p_tc p)) (c_size (p_tc p)) (c_scale (p_tc p)) (c_char (p_tc p)) q (c_mode (p_tc p))).
    destruct (piece_nums [q] (bs "Tw") 10 ltac:(auto) eq_refl eq_refl) as (os & P & N). cbn [map] in N.
    apply (goes_value (KWord q) (set_tc tc p) tc (op_line [q] "Tw") (with_word (millionths q)) (IOp os (bs "Tw"))); try reflexivity; auto.
    + intros T. cbn [step]. unfold set_wspace. rewrite E. apply in_text_no. exact T.
    + intros T. cbn [step]. unfold set_wspace. rewrite E. apply in_text_yes. exact T.
    + intros HN. cbn [exec]. unfold exec_op. bool_ops. rewrite N, HN. reflexivity.
    + unfold tcache_ok. subst tc. tfs. rewrite T1, T2, T3, T6. repeat match goal with |- _ /\ _ => split end; auto.
    + intros e (L1 & L2 & L3 & L4). split; [exact L1|]. split; [exact L2|]. split; [|exact L4]. tfs. intros Q0. apply L3. apply BACK. exact Q0.
    + intros t e (L1 & L2 & L3 & L4) _. split; [exact L1|]. split; [exact L2|]. split; [tfs; auto|exact L4].
Qed.
Lemma goes_mode z : right w b (KMode z) -> goes x w b p m (KMode z).
Proof.
  facts R. cbn [right]. intros ->. pose proof (r_tc x w b p m R) as (T1 & T2 & T3 & T4 & T5 & T6 & _).
  apply (goes_silent x w b p m (KMode 1) p); [cbn [step]; unfold set_mode; rewrite T5; reflexivity|reflexivity|].
  replace (want w (KMode 1)) with w; [apply rel_synced_same; reflexivity|].
  cbn [want]. unfold on_t, lift. change (1 - 1) with 0. rewrite <- T6. destruct w as [wm wf wt]. cbn. destruct wm as [g t]. cbn. destruct t. reflexivity.
Qed.
Lemma goes_tab n : right w b (KTab n) -> goes x w b p m (KTab n).
Proof. facts R. intros _. apply (goes_silent x w b p m (KTab n) (set_tab n p)); [reflexivity|reflexivity|]. rel R; auto. Qed.

(** ** Drawing texts *)
Lemma set_t_same m0 : set_t (m_t m0) m0 = m0.
Proof. destruct m0. reflexivity. Qed.
Lemma opt_step (c : bool) q t i (f : tstate -> tstate) : p_canvas q = Some x -> piece [i] t ->
  exists q' t' is, (if c then Ok q else emit t q) = Ok q' /\ same_p q q' /\ p_tmp q' = p_tmp q ++ t' /\ piece is t' /\
    forall m1, exec i m1 = Some (set_t (f (m_t m1)) m1) -> execs is m1 = Some (set_t (if c then m_t m1 else f (m_t m1)) m1).
Proof.
  intros C P. destruct c.
  - exists q, [], []. rewrite app_nil_r. split; [reflexivity|]. split; [apply same_refl|]. split; [reflexivity|]. split; [exact piece_nil|]. intros m1 _. rewrite set_t_same. reflexivity.
  - exists (write_tmp t (opened q)), t, [i]. rewrite (emit_opened t q x C). split; [reflexivity|]. split; [apply same_opened|]. split; [apply tmp_opened|]. split; [exact P|]. intros m1 E. apply execs_one. exact E.
Qed.
Lemma text_state q f : p_canvas q = Some x -> p_tc q = p_tc p -> w_font w = Some f ->
  exists q' t is, write_text_state q = Ok q' /\ same_p q q' /\ p_tmp q' = p_tmp q ++ t /\ piece is t /\
    forall m1, no_path m1 = true -> lag (m_t (w_m w)) (m_t m1) -> execs is m1 = Some (set_t (m_t (w_m w)) m1).
Proof.
  intros C T WF. pose proof (r_font x w b p m R) as RF. rewrite WF in RF. pose proof (r_tc x w b p m R) as (T1 & T2 & T3 & T4 & T5 & T6 & T7 & T8 & T9 & T10). rewrite RF in T1, T10. destruct T10 as [T10 T11].
  unfold write_text_state. rewrite T, RF. set (tc := p_tc p) in *.
  destruct (piece_font (f_name f) (c_size tc) T10 T11) as (o & NO & P1).
  destruct (opt_step false q _ _ (with_font (Some (f_name f, millionths (c_size tc)))) C P1) as (q1 & t1 & i1 & S1 & A1 & U1 & PP1 & E1). unfold put_font. rewrite S1. cbn [bind].
  pose proof (same_canvas _ _ x A1 C) as C1.
  destruct (piece_nums [c_scale tc * 100]%Q (bs "Tz") 10 ltac:(auto) eq_refl eq_refl) as (o2 & P2 & N2). cbn [map] in N2.
  destruct (opt_step (Qeq_bool (c_scale tc) 1) q1 _ _ (with_scale (millionths (c_scale tc * 100))) C1 P2) as (q2 & t2 & i2 & S2 & A2 & U2 & PP2 & E2).
  change (if Qeq_bool (c_scale tc) 1 then Ok q1 else put_scale (c_scale tc) q1) with (if Qeq_bool (c_scale tc) 1 then Ok q1 else emit (nums_text [c_scale tc * 100]%Q ++ bs "Tz" ++ [10]) q1). rewrite S2. cbn [bind].
  pose proof (same_canvas _ _ x A2 C1) as C2.
  destruct (piece_nums [c_char tc] (bs "Tc") 10 ltac:(auto) eq_refl eq_refl) as (o3 & P3 & N3). cbn [map] in N3.
  destruct (opt_step (Qeq_bool (c_char tc) 0) q2 _ _ (with_char (millionths (c_char tc))) C2 P3) as (q3 & t3 & i3 & S3 & A3 & U3 & PP3 & E3).
  change (if Qeq_bool (c_char tc) 0 then Ok q2 else put_char (c_char tc) q2) with (if Qeq_bool (c_char tc) 0 then Ok q2 else emit (nums_text [c_char tc] ++ bs "Tc" ++ [10]) q2). rewrite S3. cbn [bind].
  pose proof (same_canvas _ _ x A3 C2) as C3.
  destruct (piece_nums [c_wspace tc] (bs "Tw") 10 ltac:(auto) eq_refl eq_refl) as (o4 & P4 & N4). cbn [map] in N4.
  destruct (opt_step (Qeq_bool (c_wspace tc) 0) q3 _ _ (with_word (millionths (c_wspace tc))) C3 P4) as (q4 & t4 & i4 & S4 & A4 & U4 & PP4 & E4).
  change (if Qeq_bool (c_wspace tc) 0 then Ok q3 else put_wspace (c_wspace tc) q3) with (if Qeq_bool (c_wspace tc) 0 then Ok q3 else emit (nums_text [c_wspace tc] ++ bs "Tw" ++ [10]) q3). rewrite S4. cbn [bind].
  rewrite T5. cbn [Z.eqb Pos.eqb]. exists q4, (t1 ++ t2 ++ t3 ++ t4), (i1 ++ i2 ++ i3 ++ i4). split; [reflexivity|].
  split; [exact (same_trans _ _ _ A1 (same_trans _ _ _ A2 (same_trans _ _ _ A3 A4)))|]. split; [rewrite U4, U3, U2, U1, <- !app_assoc; reflexivity|].
  split; [repeat (apply piece_app; [assumption|]); assumption|].
  intros m1 NPM (L1 & L2 & L3 & L4). assert (KP : forall t0 : tstate, no_path (set_t t0 m1) = true) by (intros t0; destruct m1; exact NPM).
  rewrite execs_app, (E1 m1); [|cbn [exec]; unfold exec_op; bool_ops; rewrite NO, NPM; reflexivity].
  rewrite execs_app, E2; [|cbn [exec]; unfold exec_op; bool_ops; rewrite N2, KP; reflexivity].
  match goal with |- context [execs (i3 ++ i4) (set_t ?t0 (set_t ?t1 ?m0))] => change (set_t t0 (set_t t1 m0)) with (set_t t0 m0) end.
  rewrite execs_app, E3; [|cbn [exec]; unfold exec_op; bool_ops; rewrite N3, KP; reflexivity].
  match goal with |- context [execs i4 (set_t ?t0 (set_t ?t1 ?m0))] => change (set_t t0 (set_t t1 m0)) with (set_t t0 m0) end.
  rewrite E4; [|cbn [exec]; unfold exec_op; bool_ops; rewrite N4, KP; reflexivity].
  f_equal. cbn [set_t m_t]. match goal with |- set_t ?a (set_t _ ?m0) = set_t ?t0 ?m0 => change (set_t a m0 = set_t t0 m0); f_equal end.
  destruct (m_t (w_m w)) as [u1 u2 u3 u4 u5]. destruct (m_t m1) as [v1 v2 v3 v4 v5]. cbn [t_font t_scale t_char t_word t_mode] in *.
  assert (X2 : Qeq_bool (c_scale tc) 1 = true -> v2 = u2).
  { intros Q0. apply Qeq_bool_iff in Q0. assert (Q1 : (c_scale tc * 100 == 100)%Q) by (rewrite Q0; reflexivity). rewrite (millionths_compat _ _ Q1) in T2. change (millionths 100) with (100 * 10 ^ 6) in T2. rewrite T2. auto. }
  assert (X3 : Qeq_bool (c_char tc) 0 = true -> v3 = u3) by (intros Q0; apply Qeq_bool_iff in Q0; rewrite (millionths_compat _ _ Q0) in T3; change (millionths 0) with 0 in T3; rewrite T3; auto).
  assert (X4 : Qeq_bool (c_wspace tc) 0 = true -> v4 = u4) by (intros Q0; apply Qeq_bool_iff in Q0; rewrite (millionths_compat _ _ Q0) in T4; change (millionths 0) with 0 in T4; rewrite T4; auto).
  destruct (Qeq_bool (c_scale tc) 1), (Qeq_bool (c_char tc) 0), (Qeq_bool (c_wspace tc) 0); unfold with_word, with_char, with_scale, with_font; cbn [t_font t_scale t_char t_word t_mode]; f_equal; auto; congruence.
Qed.
Lemma string_piece f s ws : bytes_ok (f_encode f s) -> piece [IOp [OStr true (f_encode f s)] (bs "Tj")] (string_text f s ++ 32 :: bs "Tj" ++ ws :: nil) \/ is_ws ws = false.
Proof.
  intros B. destruct (is_ws ws) eqn:W; [left|right; reflexivity]. replace (string_text f s ++ 32 :: bs "Tj" ++ [ws]) with ((string_text f s ++ [32] ++ []) ++ bs "Tj" ++ [ws]) by (rewrite <- !app_assoc; reflexivity).
  apply piece_word; [|reflexivity|exact W]. apply vals_cons; [|exact vals_nil]. intros k. apply value_string. exact B.
Qed.
Lemma drawn_text k s a c f : page_level (w_m w) = true -> Forall fits [a; c] -> ~ In 9 s -> w_font w = Some f -> bytes_ok (f_encode f s) ->
  step p k = (do q <- check_stream p; do _ <- check_text false q; do f <- check_font q; do q <- write_text_state (write_tmp (bs "BT" ++ nl) q); Ok (write_tmp (bs "ET" ++ nl) (draw_string f s a c q))) ->
  want w k = lift (text_event w [(millionths a, millionths c)] s) w -> b_width (book_step w b k) = b_width b -> b_cap (book_step w b k) = b_cap b -> goes x w b p m k.
Proof.
  facts R. intros H F NT9 WF BY S W B1 B2. pose proof (page_text w H) as NTX.
  assert (NPX : no_path m = true) by (rewrite <- PL in H; unfold page_level in H; apply andb_true_iff in H; tauto).
  set (q0 := write_tmp (bs "BT" ++ nl) (opened p)). assert (A0 : same_p p q0) by apply same_opened.
  destruct (text_state q0 f (same_canvas _ _ x A0 CV) ltac:(destruct A0 as (_ & _ & X & _); symmetry; exact X) WF) as (q1 & t & is & ST & A1 & U1 & P1 & E1).
  pose proof (same_trans _ _ _ A0 A1) as A2. destruct (piece_nums [a; c] (bs "Td") 32 F eq_refl eq_refl) as (o2 & P2 & N2). cbn [map] in N2.
  destruct (string_piece f s 10 BY) as [P3|X]; [|discriminate].
  apply (goes_done x w b p m k p (write_tmp (bs "ET" ++ nl) (draw_string f s a c q1))
    ((bs "BT" ++ [10]) ++ t ++ (nums_text [a; c] ++ bs "Td" ++ [32]) ++ (string_text f s ++ 32 :: bs "Tj" ++ [10]) ++ bs "ET" ++ [10])
    ([IOp [] (bs "BT")] ++ is ++ [IOp o2 (bs "Td")] ++ [IOp [OStr true (f_encode f s)] (bs "Tj")] ++ [IOp [] (bs "ET")])
    (show (EText [(millionths a, millionths c)] (f_encode f s) (m_g m) (m_t (w_m w))) (set_t (m_t (w_m w)) m))).
  - rewrite S, (check_opened p x CV). cbn [bind]. unfold check_text, check_font. destruct (opened_p p) as (_ & _ & O3 & _ & O5). rewrite <- O5, <- O3, text_p, NTX, (r_font x w b p m R), WF. cbn [Bool.eqb negb bind].
    fold q0. rewrite ST. reflexivity.
  - apply (same_trans _ _ _ A2). unfold same_p, draw_string, write_tmp. cbn. tauto.
  - unfold draw_string, write_tmp. cbn [p_tmp set_tmp]. rewrite U1. unfold q0. rewrite tmp_opened, (expand_none _ s NT9), <- !app_assoc. cbn [app]. rewrite <- !app_assoc. reflexivity.
  - apply piece_app; [apply piece_bare; reflexivity|]. apply piece_app; [exact P1|]. apply piece_app; [exact P2|]. apply piece_app; [exact P3|]. apply piece_bare; reflexivity.
  - cbn [app execs exec]. unfold exec_op at 1. bool_ops. rewrite PL, H. cbn [when]. rewrite execs_app, E1; [|destruct m; exact NPX|exact (r_lag x w b p m R)].
    cbn [execs exec]. unfold exec_op at 1. bool_ops. rewrite N2. flds. cbn [app]. unfold exec_op at 1. bool_ops. flds.
    pose proof (r_tc x w b p m R) as (T1 & _). rewrite (r_font x w b p m R), WF in T1. rewrite T1. unfold exec_op. bool_ops. cbn [no_text m_text show set_mtext negb when].
    f_equal. rewrite NTX in NT. unfold no_text in NT. destruct (m_text m) eqn:MT; [discriminate|]. destruct m; cbn in *. subst. reflexivity.
  - rewrite W. unfold text_event. rewrite WF, (untab_none _ s NT9). destruct (r_gc x w b p m R) as (G1 & G2 & G3 & G4 & G5). rel R; auto.
    + rewrite r_events, r_g. reflexivity.
    + unfold gcache_ok. rewrite B1, B2. tauto.
    + destruct r_tc as (T1 & T2 & T3 & T4 & T5 & T6 & _). repeat split; auto.
    + intros Q0. change (no_text (w_m w) = false) in Q0. congruence.
Qed.
Lemma goes_drawtext s a c : right w b (KDrawText s a c) -> goes x w b p m (KDrawText s a c).
Proof. intros (H & F & N & f & WF & BY). apply (drawn_text (KDrawText s a c) s a c f); auto. Qed.
Lemma goes_aligned s a c u al : right w b (KAligned s a c u al) -> goes x w b p m (KAligned s a c u al).
Proof.
  intros (H & N & f & WF & BY & F). destruct (Qle_bool u 0) eqn:E.
  - apply (goes_silent x w b p m (KAligned s a c u al) p); [cbn [step]; unfold draw_aligned; rewrite E; reflexivity|reflexivity|]. cbn [want book_step]. rewrite WF, E. exact R.
  - apply (drawn_text (KAligned s a c u al) s (aligned_x f s a u al) c f); auto.
    + cbn [step]. unfold draw_aligned. rewrite E. facts R. rewrite (check_opened p x CV). cbn [bind]. unfold check_text, check_font. destruct (opened_p p) as (_ & _ & O3 & _ & O5).
      rewrite <- O5, <- O3, (r_font x w b p m R), WF. reflexivity.
    + cbn [want]. rewrite WF, E. reflexivity.
Qed.
Lemma goes_begin a c : right w b (KBegin a c) -> goes x w b p m (KBegin a c).
Proof.
  facts R. intros (H & F & SY). pose proof (page_text w H) as NTX. destruct (piece_nums [a; c] (bs "Td") 10 F eq_refl eq_refl) as (o2 & P2 & N2). cbn [map] in N2.
  apply (goes_done x w b p m (KBegin a c) (set_text true p) (set_text true (write_tmp (bs "BT" ++ nl ++ op_line [a; c] "Td") (opened p))) ((bs "BT" ++ [10]) ++ nums_text [a; c] ++ bs "Td" ++ [10])
    ([IOp [] (bs "BT")] ++ [IOp o2 (bs "Td")]) (set_mtext (Some [(millionths a, millionths c)]) m)).
  - cbn [step]. unfold begin_text. rewrite (check_opened p x CV). cbn [bind]. unfold check_text. destruct (opened_p p) as (_ & _ & _ & _ & O5). rewrite <- O5, text_p, NTX. reflexivity.
  - destruct (opened_p p) as (O1 & O2 & O3 & O4 & O5). unfold same_p. cbn [set_text write_tmp set_tmp p_canvas p_gc p_tc p_tab p_text]. tauto.
  - unfold write_tmp. cbn [p_tmp set_text set_tmp]. rewrite opened_tmp. reflexivity.
  - apply piece_app; [apply piece_bare; reflexivity|exact P2].
  - cbn [app execs exec]. unfold exec_op at 1. bool_ops. rewrite PL, H. cbn [when]. unfold exec_op. bool_ops. rewrite N2. reflexivity.
  - rel R; auto.
Qed.
Lemma goes_movetext a c : right w b (KMoveText a c) -> goes x w b p m (KMoveText a c).
Proof.
  facts R. intros (H & F). destruct (piece_nums [a; c] (bs "Td") 10 F eq_refl eq_refl) as (o2 & P2 & N2). cbn [map] in N2.
  pose proof (r_text x w b p m R) as RT. assert (MT : exists l, m_text (w_m w) = Some l) by (unfold no_text in H; destruct (m_text (w_m w)) as [l|]; [exists l; reflexivity|discriminate]). destruct MT as (l & MT). rewrite MT in RT.
  apply (goes_done x w b p m (KMoveText a c) p (write_tmp (op_line [a; c] "Td") (opened p)) (nums_text [a; c] ++ bs "Td" ++ [10]) [IOp o2 (bs "Td")] (set_mtext (Some (l ++ [(millionths a, millionths c)])) m)).
  - cbn [step]. unfold move_text. rewrite (check_opened p x CV). cbn [bind]. unfold check_text. destruct (opened_p p) as (_ & _ & _ & _ & O5). rewrite <- O5, text_p, H. reflexivity.
  - apply same_opened.
  - apply tmp_opened.
  - exact P2.
  - one. rewrite N2, RT. reflexivity.
  - rel R; rewrite ?MT; flds; auto. rewrite r_ptext, H. reflexivity.
Qed.
Lemma goes_addtext s : right w b (KAddText s) -> goes x w b p m (KAddText s).
Proof.
  facts R. intros (H & N9 & f & WF & BY). destruct (string_piece f s 10 BY) as [P3|X]; [|discriminate].
  pose proof (r_text x w b p m R) as RT. assert (MT : exists l, m_text (w_m w) = Some l) by (unfold no_text in H; destruct (m_text (w_m w)) as [l|]; [exists l; reflexivity|discriminate]). destruct MT as (l & MT). rewrite MT in RT.
  pose proof (r_sync x w b p m R (r_open x w b p m R H)) as SY. pose proof (r_tc x w b p m R) as (T1 & _). rewrite (r_font x w b p m R), WF in T1.
  apply (goes_done x w b p m (KAddText s) p (write_tmp (string_text f s ++ bs " Tj" ++ nl) (opened p)) (string_text f s ++ 32 :: bs "Tj" ++ [10]) [IOp [OStr true (f_encode f s)] (bs "Tj")]
    (show (EText l (f_encode f s) (m_g m) (m_t m)) m)).
  - cbn [step]. unfold add_text. rewrite (check_opened p x CV). cbn [bind]. unfold check_text, check_font. destruct (opened_p p) as (_ & _ & O3 & O4 & O5). rewrite <- O5, <- O3, text_p, H, (r_font x w b p m R), WF. cbn [bind Bool.eqb negb].
    rewrite (expand_none _ s N9). reflexivity.
  - apply same_opened.
  - apply tmp_opened.
  - exact P3.
  - one. rewrite RT, SY, T1. reflexivity.
  - unfold want, lift. rewrite MT. unfold text_event. rewrite WF, (untab_none _ s N9). rel R; auto; [rewrite r_events, r_g, SY; reflexivity|rewrite r_font; assumption].
Qed.
Lemma goes_end : right w b KEnd -> goes x w b p m KEnd.
Proof.
  facts R. cbn [right]. intros H.
  apply (goes_done x w b p m KEnd (set_text false p) (set_text false (write_tmp (bs "ET" ++ nl) (opened p))) (bs "ET" ++ [10]) [IOp [] (bs "ET")] (set_mtext None m)).
  - cbn [step]. unfold end_text. rewrite (check_opened p x CV). cbn [bind]. unfold check_text. destruct (opened_p p) as (_ & _ & _ & _ & O5). rewrite <- O5, text_p, H. reflexivity.
  - destruct (opened_p p) as (O1 & O2 & O3 & O4 & O5). unfold same_p. cbn [set_text write_tmp set_tmp p_canvas p_gc p_tc p_tab p_text]. tauto.
  - unfold write_tmp. cbn [p_tmp set_text set_tmp]. rewrite opened_tmp. reflexivity.
  - apply piece_bare; reflexivity.
  - one. rewrite NT, H. reflexivity.
  - rel R; auto.
Qed.
(** ** Objects and marks *)
Lemma goes_xobject n o a c sx sy : right w b (KXObject n o a c sx sy) -> goes x w b p m (KXObject n o a c sx sy).
Proof.
  facts R. intros (H & PN & F). pose proof (same_canvas _ _ x (opened_p p) CV) as C'.
  assert (F' : Forall fits [sx; 0; 0; sy; a; c]%Q).
  { assert (Z0 : fits 0) by (split; [reflexivity|cbn [Qnum]; lia]). pose proof (proj1 (Forall_forall _ _) F) as FF. apply Forall_forall. intros q I. cbn [In] in I. destruct I as [<-|[<-|[<-|[<-|[<-|[<-|[]]]]]]]; auto; apply FF; cbn [In]; auto. }
  destruct (piece_nums _ (bs "cm") 10 F' eq_refl eq_refl) as (o2 & P2 & N2).
  apply (goes_done x w b p m (KXObject n o a c sx sy) p
    (write_tmp (bs "q" ++ nl ++ num_text sx ++ bs " 0 0 " ++ nums_text [sy; a; c] ++ bs "cm" ++ nl ++ bs "/" ++ n ++ bs " Do" ++ nl ++ bs "Q" ++ nl) (with_res (bs "XObject") n o x (opened p)))
    ((bs "q" ++ [10]) ++ (nums_text [sx; 0; 0; sy; a; c]%Q ++ bs "cm" ++ [10]) ++ (bs "/" ++ n ++ 32 :: bs "Do" ++ nl) ++ bs "Q" ++ [10])
    ([IOp [] (bs "q")] ++ [IOp o2 (bs "cm")] ++ [IOp [OName n] (bs "Do")] ++ [IOp [] (bs "Q")])
    (show (EObject n (with_ctm (map millionths [sx; 0; 0; sy; a; c]%Q :: g_ctm (m_g m)) (m_g m))) m)).
  - cbn [step]. unfold draw_xobject. rewrite (check_opened p x CV). cbn [bind]. rewrite (add_with _ _ _ x _ C'). reflexivity.
  - apply (same_trans _ _ _ (opened_p p)). unfold same_p, write_tmp, with_res. cbn. tauto.
  - unfold write_tmp, with_res. cbn [p_tmp set_tmp set_world]. rewrite opened_tmp. f_equal. unfold nums_text. cbn [flat_map]. change (num_text 0) with [48]. rewrite <- !app_assoc. reflexivity.
  - apply piece_app; [apply piece_bare; reflexivity|]. apply piece_app; [exact P2|]. apply piece_app; [apply piece_named; [exact PN|reflexivity]|]. apply piece_bare; reflexivity.
  - assert (PG : forall g l e, page_level (mk_m g (m_t m) l (m_path m) (m_clip m) (m_text m) (m_marks m) e) = true) by (intros g l e; rewrite <- PL in H; destruct m; exact H).
    cbn [app execs exec]. unfold exec_op at 1. bool_ops. rewrite PL, H. cbn [when]. unfold exec_op at 1. bool_ops. rewrite N2. cbn [map]. unfold set_stack at 1. flds. rewrite PG. cbn [when].
    unfold exec_op at 1. bool_ops. unfold set_g at 1. flds. rewrite PG. cbn [when]. unfold exec_op. bool_ops. flds. unfold show at 1. flds. rewrite PG. cbn [when]. f_equal.
  - rel R; auto. rewrite r_events, r_g. reflexivity.
Qed.
Lemma goes_beginmark n : right w b (KBeginMark n) -> goes x w b p m (KBeginMark n).
Proof.
  facts R. intros (H & PN). apply (goes_done x w b p m (KBeginMark n) p (write_tmp (bs "/" ++ n ++ bs " BMC" ++ nl) p) (bs "/" ++ n ++ 32 :: bs "BMC" ++ nl) [IOp [OName n] (bs "BMC")] (set_marks (n :: m_marks m) m)).
  - reflexivity.
  - unfold same_p, write_tmp. cbn. tauto.
  - reflexivity.
  - apply piece_named; [exact PN|reflexivity].
  - one. rewrite NP, H. reflexivity.
  - rel R; auto. rewrite r_marks. reflexivity.
Qed.
Lemma goes_endmark : right w b KEndMark -> goes x w b p m KEndMark.
Proof.
  facts R. intros (H & NE). pose proof (r_marks x w b p m R) as RM. destruct (m_marks (w_m w)) as [|n0 r] eqn:EM; [congruence|].
  apply (goes_done x w b p m KEndMark p (write_tmp (bs "EMC" ++ nl) p) (bs "EMC" ++ [10]) [IOp [] (bs "EMC")] (set_marks r m)).
  - reflexivity.
  - unfold same_p, write_tmp. cbn. tauto.
  - reflexivity.
  - apply piece_bare; reflexivity.
  - one. rewrite RM, NP, H. reflexivity.
  - rel R; auto. rewrite EM. reflexivity.
Qed.
Lemma goes_all k : right w b k -> goes x w b p m k.
Proof.
  destruct k; intros H; try (exfalso; exact H).
  all: revert H; first [exact (goes_save x w b p m R)|exact (goes_restore x w b p m R)|apply (goes_matrix x w b p m R)|apply (goes_width x w b p m R)|apply (goes_miter x w b p m R)|apply (goes_cap x w b p m R)
    |apply (goes_join x w b p m R)|apply (goes_intent x w b p m R)|apply (goes_fill x w b p m R)|apply (goes_stroke x w b p m R)|apply (goes_style x w b p m R)|apply (goes_ext x w b p m R)
    |apply (goes_move x w b p m R)|apply (goes_line x w b p m R)|apply (goes_curve x w b p m R)|apply (goes_rect x w b p m R)|apply (goes_ellipse x w b p m R)|apply (goes_circle x w b p m R)|apply (goes_close x w b p m R)
    |apply (goes_paint x w b p m R)|apply (goes_pfill x w b p m R)|apply (goes_pboth x w b p m R)|apply (goes_clip x w b p m R)|apply (goes_endpath x w b p m R)|apply (goes_drawline x w b p m R)|apply (goes_cliprect x w b p m R)
    |apply goes_font|apply goes_scale|apply goes_char|apply goes_word|apply goes_mode|apply goes_tab|apply goes_drawtext|apply goes_aligned|apply goes_begin|apply goes_movetext|apply goes_addtext|apply goes_end
    |apply goes_xobject|apply goes_beginmark|apply goes_endmark].
Qed.
End Sim.
(** ** Sessions *)
Lemma session_goes x w b l w' : session w b l w' -> forall p m, Rel x w b p m ->
  exists p' t is m' b', run p l = Ok p' /\ p_tmp p' = p_tmp p ++ t /\ piece is t /\ execs is m = Some m' /\ Rel x w' b' p' m'.
Proof.
  induction 1 as [w b|w b k l w' RI _ IH]; intros p m R.
  - exists p, [], [], m, b. rewrite app_nil_r. split; [reflexivity|]. split; [reflexivity|]. split; [exact piece_nil|]. split; [reflexivity|exact R].
  - destruct (goes_all x w b p m R k RI) as (p1 & t1 & i1 & m1 & S1 & T1 & P1 & E1 & R1). destruct (IH p1 m1 R1) as (p2 & t2 & i2 & m2 & b2 & S2 & T2 & P2 & E2 & R2).
    exists p2, (t1 ++ t2), (i1 ++ i2), m2, b2. cbn [run]. rewrite S1. cbn [bind]. split; [exact S2|]. split; [rewrite T2, T1, app_assoc; reflexivity|]. split; [apply piece_app; assumption|].
    split; [rewrite execs_app, E1; exact E2|exact R2].
Qed.
Lemma rel_new x fl w0 : Rel x new_wanted new_book (set_canvas x (new_painter fl w0)) begin_m.
Proof.
  unfold set_canvas. cbn [p_canvas new_painter]. constructor; try reflexivity; try constructor; try discriminate; try reflexivity.
  all: try (repeat split; try reflexivity; cbn; intros; (lia || congruence)).
Qed.
