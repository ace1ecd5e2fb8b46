(** Proofs about the streams and resources of canvases: what the calls keep, what finishing writes, and what a page shows afterwards. *)
From Coq Require Import String QArith Permutation.
From Verif Require Import Base TokModel WriteModel TokProofs LexProofs RealProofs ObjSpec ChainProofs CMapModel CMapSpec ContentsModel ContentsSpec PainterModel PainterSpec PainterTextProofs PainterProofs PainterSimProofs PainterCallProofs.
Local Open Scope Z_scope.

(** ** What all calls keep *)
Definition keys (c : canvas) : list (list Z * list Z) := map fst (cv_res c).
Record kept (p p' : painter) : Prop := mk_kept
  { kp_flags : p_flags p' = p_flags p; kp_canvas : p_canvas p' = p_canvas p; kp_tmp : exists t, p_tmp p' = p_tmp p ++ t; kp_open : p_open p = true -> p_open p' = true;
    kp_none : p_canvas p = None -> p_world p' = p_world p /\ p_open p' = p_open p;
    kp_other : forall x y, p_canvas p = Some x -> y <> x -> p_world p' y = p_world p y;
    kp_form : forall x, p_canvas p = Some x -> cv_form (p_world p' x) = cv_form (p_world p x);
    kp_streams : forall x, p_canvas p = Some x ->
      cv_streams (p_world p' x) = if p_open p' && negb (p_open p) then cv_streams (stream_for_appending (p_flags p) (p_world p x)) else cv_streams (p_world p x);
    kp_keys : forall x, p_canvas p = Some x -> incl (keys (p_world p x)) (keys (p_world p' x)) }.
Lemma kept_plain p p' : p_flags p' = p_flags p -> p_canvas p' = p_canvas p -> (exists t, p_tmp p' = p_tmp p ++ t) -> p_open p' = p_open p -> p_world p' = p_world p -> kept p p'.
Proof.
  intros A B T C D. constructor; auto; intros; rewrite ?C, ?D; auto.
  - destruct (p_open p); reflexivity.
  - apply incl_refl.
Qed.
Lemma kept_refl p : kept p p.
Proof. apply kept_plain; auto. exists []. rewrite app_nil_r. reflexivity. Qed.
Lemma sfa_streams fl c c' : cv_form c = cv_form c' -> cv_streams c = cv_streams c' -> cv_streams (stream_for_appending fl c) = cv_streams (stream_for_appending fl c').
Proof. intros A B. unfold stream_for_appending. rewrite A, B. destruct (cv_form c'); reflexivity. Qed.
Lemma kept_trans p q r : kept p q -> kept q r -> kept p r.
Proof.
  intros [A1 A2 (t1 & A3) A4 A5 A6 A7 A8 A9] [B1 B2 (t2 & B3) B4 B5 B6 B7 B8 B9]. constructor; auto; try congruence.
  - exists (t1 ++ t2). rewrite B3, A3, app_assoc. reflexivity.
  - intros N. destruct (A5 N) as [U V]. rewrite N in A2. destruct (B5 A2) as [U' V']. split; congruence.
  - intros x y C N. rewrite C in A2. rewrite (B6 x y A2 N). apply (A6 x); assumption.
  - intros x C. rewrite C in A2. rewrite (B7 x A2). apply (A7 x C).
  - intros x C. rewrite C in A2. rewrite (B8 x A2), A1. specialize (A8 x C). specialize (A7 x C). destruct (p_open p) eqn:O1.
    + rewrite (A4 eq_refl) in *. rewrite (B4 eq_refl) in *. exact A8.
    + destruct (p_open q) eqn:O2; [rewrite (B4 eq_refl) in *; exact A8|]. cbn [andb negb] in *. destruct (p_open r); cbn [andb] in *; [apply sfa_streams; assumption|exact A8].
  - intros x C. rewrite C in A2. exact (incl_tran (A9 x C) (B9 x A2)).
Qed.
Lemma sfa_form fl c : cv_form (stream_for_appending fl c) = cv_form c.
Proof. unfold stream_for_appending. destruct (cv_form c); reflexivity. Qed.
Lemma sfa_res fl c : cv_res (stream_for_appending fl c) = cv_res c.
Proof. unfold stream_for_appending. destruct (cv_form c); reflexivity. Qed.
Lemma upd_same w x c : upd w x c x = c.
Proof. unfold upd. rewrite Z.eqb_refl. reflexivity. Qed.
Lemma upd_other w x c y : y <> x -> upd w x c y = w y.
Proof. unfold upd. intros N. rewrite (proj2 (Z.eqb_neq y x) N). reflexivity. Qed.
Lemma kept_check p p' : check_stream p = Ok p' -> kept p p' /\ p_open p' = true /\ p_tmp p' = p_tmp p.
Proof.
  unfold check_stream. destruct (p_open p) eqn:O; [intros E; apply ok_inj in E; subst; split; [apply kept_refl|auto]|].
  destruct (p_canvas p) as [x|] eqn:C; [|discriminate]. intros E. apply ok_inj in E. subst p'. split; [|split; reflexivity].
  constructor; cbn [set_open set_world p_flags p_canvas p_tmp p_open p_world]; auto; try congruence.
  - exists []. rewrite app_nil_r. reflexivity.
  - intros x0 y C0 N. rewrite C in C0. injection C0 as <-. apply upd_other. exact N.
  - intros x0 C0. rewrite C in C0. injection C0 as <-. rewrite upd_same. apply sfa_form.
  - intros x0 C0. rewrite C in C0. injection C0 as <-. rewrite upd_same, O. reflexivity.
  - intros x0 C0. rewrite C in C0. injection C0 as <-. rewrite upd_same. unfold keys. rewrite sfa_res. apply incl_refl.
Qed.
Lemma kept_write t p : kept p (write_tmp t p).
Proof. apply kept_plain; try reflexivity. exists t. reflexivity. Qed.
Lemma kept_emit t p p' : emit t p = Ok p' -> kept p p' /\ p_open p' = true /\ p_tmp p' = p_tmp p ++ t.
Proof.
  unfold emit. intros H. apply bind_ok in H as (q & H1 & H2). apply ok_inj in H2. subst p'. destruct (kept_check p q H1) as (K & O & T).
  split; [exact (kept_trans _ _ _ K (kept_write t q))|]. split; [exact O|]. unfold write_tmp. cbn [p_tmp set_tmp]. rewrite T. reflexivity.
Qed.
Lemma add_keys ty n o c : In (ty, n) (keys (add_resource ty n o c)).
Proof. left. reflexivity. Qed.
Lemma add_incl ty n o c : incl (keys c) (keys (add_resource ty n o c)).
Proof.
  intros [ty' n'] H. unfold keys in *. cbn [add_resource cv_res map]. destruct (beq ty' ty && beq n' n) eqn:E.
  - apply andb_true_iff in E as [E1 E2]. apply beq_eq in E1, E2. subst. left. reflexivity.
  - right. apply in_map_iff in H as ([[a b] o'] & X & I). cbn [fst] in X. injection X as -> ->. apply in_map_iff. exists (ty', n', o'). split; [reflexivity|]. apply filter_In. split; [exact I|].
    unfold same_key. cbn [fst snd]. rewrite E. reflexivity.
Qed.
Lemma kept_add ty n o p p' : add_to_resources ty n o p = Ok p' -> kept p p' /\ p_open p' = p_open p /\ p_tmp p' = p_tmp p /\ exists x, p_canvas p = Some x /\ In (ty, n) (keys (p_world p' x)).
Proof.
  unfold add_to_resources. destruct (p_canvas p) as [x|] eqn:C; [|discriminate]. intros E. apply ok_inj in E. subst p'. split; [|split; [reflexivity|split; [reflexivity|]]].
  - constructor; cbn [set_world p_flags p_canvas p_tmp p_open p_world]; auto; try congruence.
    + exists []. rewrite app_nil_r. reflexivity.
    + intros x0 y C0 N. rewrite C in C0. injection C0 as <-. apply upd_other. exact N.
    + intros x0 C0. rewrite C in C0. injection C0 as <-. rewrite upd_same. reflexivity.
    + intros x0 C0. rewrite C in C0. injection C0 as <-. rewrite upd_same. destruct (p_open p); reflexivity.
    + intros x0 C0. rewrite C in C0. injection C0 as <-. rewrite upd_same. apply add_incl.
  - exists x. split; [reflexivity|]. cbn [set_world p_world]. rewrite upd_same. apply add_keys.
Qed.
Lemma kept_gc g p : kept p (set_gc g p).
Proof. apply kept_plain; try reflexivity. exists []. rewrite app_nil_r. reflexivity. Qed.
Lemma kept_tc t p : kept p (set_tc t p).
Proof. apply kept_plain; try reflexivity. exists []. rewrite app_nil_r. reflexivity. Qed.
Lemma kept_text t p : kept p (set_text t p).
Proof. apply kept_plain; try reflexivity. exists []. rewrite app_nil_r. reflexivity. Qed.
Lemma kept_tab t p : kept p (set_tab t p).
Proof. apply kept_plain; try reflexivity. exists []. rewrite app_nil_r. reflexivity. Qed.
Lemma kept_points a b c p : kept p (set_points a b c p).
Proof. apply kept_plain; try reflexivity. exists []. rewrite app_nil_r. reflexivity. Qed.
Lemma kept_all l : forall p p', (forall f q q', In f l -> f q = Ok q' -> kept q q') -> all_of l p = Ok p' -> kept p p'.
Proof.
  induction l as [|f l IH]; intros p p' H E; [apply ok_inj in E; subst; apply kept_refl|]. cbn [all_of] in E. apply bind_ok in E as (q & E1 & E2).
  apply (kept_trans _ q); [exact (H f p q (or_introl eq_refl) E1)|]. apply IH; [|exact E2]. intros g r r' I. apply H. right. exact I.
Qed.
Lemma kept_in_text t p p' : in_text (emit t) p = Ok p' -> kept p p'.
Proof. unfold in_text. destruct (p_text p); intros E; [exact (proj1 (kept_emit t p p' E))|apply ok_inj in E; subst; apply kept_refl]. Qed.
Lemma kept_state p p' : write_text_state p = Ok p' -> kept p p' /\ (p_open p = true -> p_open p' = true).
Proof.
  intros H. assert (K : kept p p'); [|split; [exact K|exact (kp_open _ _ K)]]. unfold write_text_state in H.
  apply bind_ok in H as (q1 & H1 & H). apply bind_ok in H as (q2 & H2 & H). apply bind_ok in H as (q3 & H3 & H). apply bind_ok in H as (q4 & H4 & H).
  assert (X : forall (c : bool) t a a', (if c then Ok a else emit t a) = Ok a' -> kept a a') by (intros [|] t a a' E; [apply ok_inj in E; subst; apply kept_refl|exact (proj1 (kept_emit t a a' E))]).
  apply (kept_trans _ q1). { destruct (c_font (p_tc p)); [exact (proj1 (kept_emit _ _ _ H1))|apply ok_inj in H1; subst; apply kept_refl]. }
  apply (kept_trans _ q2); [exact (X _ _ _ _ H2)|]. apply (kept_trans _ q3); [exact (X _ _ _ _ H3)|]. apply (kept_trans _ q4); [exact (X _ _ _ _ H4)|]. exact (X _ _ _ _ H).
Qed.
Lemma kept_color st c p p' : set_color st c p = Ok p' -> kept p p' /\ p_open p' = true.
Proof.
  unfold set_color. intros H. apply bind_ok in H as (q & H1 & H). apply bind_ok in H as (q2 & H2 & H). apply bind_ok in H as (t & _ & H). apply ok_inj in H. subst p'.
  destruct (kept_check p q H1) as (K & O & _). assert (K2 : kept q q2 /\ p_open q2 = p_open q).
  { unfold color_resource in H2. destruct c; try (apply ok_inj in H2; subst; split; [apply kept_refl|reflexivity]); destruct (kept_add _ _ _ _ _ H2) as (A & B & _); auto. }
  destruct K2 as [K2 O2]. split; [exact (kept_trans _ _ _ K (kept_trans _ _ _ K2 (kept_write t q2)))|]. cbn. congruence.
Qed.
(** calls which stay on the canvas *)
Definition stays (k : call) : bool := match k with KCanvas _ | KFinish => false | _ => true end.
Lemma kept_step p k p' : stays k = true -> step p k = Ok p' -> kept p p'.
Proof.
  intros S H. destruct k; try discriminate S; cbn [step] in H.
  all: try exact (proj1 (kept_emit _ _ _ H)).
  all: try (apply ok_inj in H; subst; first [apply kept_write|apply kept_tab]).
  - unfold set_matrix in H. destruct (qs_eqb _ _); [apply ok_inj in H; subst; apply kept_refl|]. apply (kept_trans _ _ _ (kept_gc _ p) (proj1 (kept_emit _ _ _ H))).
  - unfold set_width in H. destruct (Qeq_bool _ _); [apply ok_inj in H; subst; apply kept_refl|]. apply (kept_trans _ _ _ (kept_gc _ p) (proj1 (kept_emit _ _ _ H))).
  - unfold set_miter in H. destruct (Qeq_bool _ _); [apply ok_inj in H; subst; apply kept_refl|]. apply (kept_trans _ _ _ (kept_gc _ p) (proj1 (kept_emit _ _ _ H))).
  - unfold set_cap in H. destruct (_ =? _); [apply ok_inj in H; subst; apply kept_refl|]. apply (kept_trans _ _ _ (kept_gc _ p) (proj1 (kept_emit _ _ _ H))).
  - unfold set_join in H. destruct (_ =? _); [apply ok_inj in H; subst; apply kept_refl|]. apply (kept_trans _ _ _ (kept_gc _ p) (proj1 (kept_emit _ _ _ H))).
  - unfold set_intent in H. destruct (beq _ _); [apply ok_inj in H; subst; apply kept_refl|]. apply (kept_trans _ _ _ (kept_gc _ p) (proj1 (kept_emit _ _ _ H))).
  - unfold set_fill in H. destruct (color_eqb _ _); [apply ok_inj in H; subst; apply kept_refl|]. apply (kept_trans _ _ _ (kept_gc _ p) (proj1 (kept_color _ _ _ _ H))).
  - unfold set_stroke in H. destruct (color_eqb _ _); [apply ok_inj in H; subst; apply kept_refl|]. apply (kept_trans _ _ _ (kept_gc _ p) (proj1 (kept_color _ _ _ _ H))).
  - unfold stroke_style in H. apply bind_ok in H as (q & H1 & H). apply bind_ok in H as (t & _ & H). apply ok_inj in H. subst. apply (kept_trans _ q); [exact (proj1 (kept_check _ _ H1))|apply kept_write].
  - unfold set_ext in H. apply bind_ok in H as (q & H1 & H). apply bind_ok in H as (q2 & H2 & H). apply ok_inj in H. subst. apply (kept_trans _ q); [exact (proj1 (kept_check _ _ H1))|].
    apply (kept_trans _ q2); [exact (proj1 (kept_add _ _ _ _ _ H2))|apply kept_write].
  - unfold smooth_to in H. exact (kept_trans _ _ _ (kept_points _ _ _ p) (proj1 (kept_emit _ _ _ H))).
  - unfold quad_to in H. exact (kept_trans _ _ _ (kept_points _ _ _ p) (proj1 (kept_emit _ _ _ H))).
  - unfold smooth_quad_to in H. exact (kept_trans _ _ _ (kept_points _ _ _ p) (proj1 (kept_emit _ _ _ H))).
  - unfold rectangle in H. destruct (_ || _); [|exact (proj1 (kept_emit _ _ _ H))]. revert H. apply kept_all. intros f q q' I.
    cbn [In] in I. destruct I as [<-|I]; [intros E; exact (proj1 (kept_check _ _ E))|]. repeat (destruct I as [<-|I]; [intros E; exact (proj1 (kept_emit _ _ _ E))|]). contradiction.
  - unfold circle in H. revert H. apply kept_all. intros f q q' I.
    cbn [In] in I. destruct I as [<-|I]; [intros E; exact (proj1 (kept_check _ _ E))|]. repeat (destruct I as [<-|I]; [intros E; exact (proj1 (kept_emit _ _ _ E))|]). contradiction.
  - unfold set_font, put_font in H. destruct (_ && _); [apply ok_inj in H; subst; apply kept_refl|]. apply bind_ok in H as (q & H1 & H).
    pose proof (kept_in_text _ _ _ H) as K3. destruct (kept_add _ _ _ _ _ H1) as (K2 & _). refine (kept_trans _ _ _ _ (kept_trans _ _ _ K2 K3)). apply kept_tc.
  - unfold set_scale, put_scale in H. destruct (Qeq_bool _ _); [apply ok_inj in H; subst; apply kept_refl|]. exact (kept_trans _ _ _ (kept_tc _ p) (kept_in_text _ _ _ H)).
  - unfold set_char, put_char in H. destruct (Qeq_bool _ _); [apply ok_inj in H; subst; apply kept_refl|]. exact (kept_trans _ _ _ (kept_tc _ p) (kept_in_text _ _ _ H)).
  - unfold set_wspace, put_wspace in H. destruct (Qeq_bool _ _); [apply ok_inj in H; subst; apply kept_refl|]. exact (kept_trans _ _ _ (kept_tc _ p) (kept_in_text _ _ _ H)).
  - unfold set_mode, put_mode in H. destruct (_ =? _); [apply ok_inj in H; subst; apply kept_refl|]. exact (kept_trans _ _ _ (kept_tc _ p) (kept_in_text _ _ _ H)).
  - unfold draw_text in H. apply bind_ok in H as (q & H1 & H). apply bind_ok in H as (u & _ & H). apply bind_ok in H as (f & _ & H). apply bind_ok in H as (q2 & H2 & H). apply ok_inj in H. subst.
    apply (kept_trans _ q); [exact (proj1 (kept_check _ _ H1))|]. refine (kept_trans _ _ _ (kept_trans _ _ _ (kept_write _ q) (proj1 (kept_state _ _ H2))) _). eapply kept_trans; apply kept_write.
  - unfold draw_aligned in H. destruct (Qle_bool _ _); [apply ok_inj in H; subst; apply kept_refl|].
    apply bind_ok in H as (q & H1 & H). apply bind_ok in H as (u & _ & H). apply bind_ok in H as (f & _ & H). apply bind_ok in H as (q2 & H2 & H). apply ok_inj in H. subst.
    apply (kept_trans _ q); [exact (proj1 (kept_check _ _ H1))|]. refine (kept_trans _ _ _ (kept_trans _ _ _ (kept_write _ q) (proj1 (kept_state _ _ H2))) _). eapply kept_trans; apply kept_write.
  - unfold draw_multiline in H. apply bind_ok in H as (q & H1 & H). apply bind_ok in H as (f & _ & H). apply bind_ok in H as (u & _ & H). apply (kept_trans _ q); [exact (proj1 (kept_check _ _ H1))|].
    destruct (_ || _); [apply ok_inj in H; subst; apply kept_refl|]. apply bind_ok in H as (q2 & H2 & H). refine (kept_trans _ _ _ (kept_trans _ _ _ (kept_write _ q) (proj1 (kept_state _ _ H2))) _).
    apply bind_ok in H as (q3 & H3 & H). apply (kept_trans _ q3); [exact (proj1 (kept_emit _ _ _ H3))|]. apply bind_ok in H as (q4 & H4 & H).
    apply (kept_trans _ q4); [destruct clip; [exact (proj1 (kept_emit _ _ _ H4))|apply ok_inj in H4; subst; apply kept_refl]|]. apply bind_ok in H as (q5 & H5 & H). apply ok_inj in H. subst p'.
    apply (kept_trans _ q5); [|apply kept_write]. match type of H5 with emit _ ?z = _ => apply (kept_trans _ z) end; [|exact (proj1 (kept_emit _ _ _ H5))].
    destruct (expand_tabs _ _); [apply kept_refl|apply kept_write].
  - unfold begin_text in H. apply bind_ok in H as (q & H1 & H). apply bind_ok in H as (u & _ & H). apply ok_inj in H. subst. apply (kept_trans _ q); [exact (proj1 (kept_check _ _ H1))|]. exact (kept_trans _ _ _ (kept_write _ q) (kept_text _ _)).
  - unfold move_text in H. apply bind_ok in H as (q & H1 & H). apply bind_ok in H as (u & _ & H). apply ok_inj in H. subst. apply (kept_trans _ q); [exact (proj1 (kept_check _ _ H1))|]. apply kept_write.
  - unfold add_text in H. apply bind_ok in H as (q & H1 & H). apply bind_ok in H as (u & _ & H). apply bind_ok in H as (v & _ & H). apply ok_inj in H. subst. apply (kept_trans _ q); [exact (proj1 (kept_check _ _ H1))|]. apply kept_write.
  - unfold end_text in H. apply bind_ok in H as (q & H1 & H). apply bind_ok in H as (u & _ & H). apply ok_inj in H. subst. apply (kept_trans _ q); [exact (proj1 (kept_check _ _ H1))|]. exact (kept_trans _ _ _ (kept_write _ q) (kept_text _ _)).
  - unfold draw_xobject in H. apply bind_ok in H as (q & H1 & H). apply bind_ok in H as (q2 & H2 & H). apply ok_inj in H. subst. apply (kept_trans _ q); [exact (proj1 (kept_check _ _ H1))|].
    apply (kept_trans _ q2); [exact (proj1 (kept_add _ _ _ _ _ H2))|apply kept_write].
Qed.
Lemma kept_run l : forall p p', forallb stays l = true -> run p l = Ok p' -> kept p p'.
Proof.
  induction l as [|k l IH]; intros p p' S H; [apply ok_inj in H; subst; apply kept_refl|]. cbn [forallb] in S. apply andb_true_iff in S as [S1 S2]. cbn [run] in H. apply bind_ok in H as (q & H1 & H2).
  exact (kept_trans _ _ _ (kept_step p k q S1 H1) (IH q p' S2 H2)).
Qed.

(** ** Calls which draw *)
Lemma op_line_ne l n : op_line l n <> [].
Proof. unfold op_line. intros Y. apply app_eq_nil in Y as [_ Y]. apply app_eq_nil in Y as [_ Y]. discriminate. Qed.
Lemma draws_step p k p' : draws k = true -> step p k = Ok p' -> p_open p' = true /\ p_tmp p' <> [].
Proof.
  intros D H. assert (E : forall t, t <> [] -> emit t p = Ok p' -> p_open p' = true /\ p_tmp p' <> []).
  { intros t N X. destruct (kept_emit t p p' X) as (_ & O & T). split; [exact O|]. rewrite T. intros Y. apply app_eq_nil in Y. tauto. }
  assert (N2 : forall t c u (q : painter), p_tmp (write_tmp (t ++ c :: u) q) <> []).
  { intros t c u q Y. unfold write_tmp in Y. cbn [p_tmp set_tmp] in Y. apply app_eq_nil in Y as [_ Y]. apply app_eq_nil in Y as [_ Y]. discriminate. }
  destruct k; try discriminate D; cbn [step] in H.
  - apply (E _ (op_line_ne _ _) H).
  - destruct eo; apply (E _ (op_line_ne _ _) H).
  - destruct eo; apply (E _ (op_line_ne _ _) H).
  - refine (E _ _ H). intros Y. apply app_eq_nil in Y as [_ Y]. apply app_eq_nil in Y as [_ Y]. exact (op_line_ne _ _ Y).
  - unfold draw_text in H. apply bind_ok in H as (q & H1 & H). apply bind_ok in H as (u & _ & H). apply bind_ok in H as (f & _ & H). apply bind_ok in H as (q2 & H2 & H). apply ok_inj in H. subst.
    destruct (kept_check _ _ H1) as (_ & O & _). destruct (kept_state _ _ H2) as (_ & O2). split; [exact (O2 O)|]. apply (N2 [] 69).
  - unfold add_text in H. apply bind_ok in H as (q & H1 & H). apply bind_ok in H as (u & _ & H). apply bind_ok in H as (v & _ & H). apply ok_inj in H. subst. destruct (kept_check _ _ H1) as (_ & O & _).
    split; [exact O|]. apply (N2 [] 60).
  - unfold draw_xobject in H. apply bind_ok in H as (q & H1 & H). apply bind_ok in H as (q2 & H2 & H). apply ok_inj in H. subst. destruct (kept_check _ _ H1) as (_ & O & _). destruct (kept_add _ _ _ _ _ H2) as (_ & O2 & _).
    split; [cbn; congruence|]. apply (N2 [] 113).
Qed.
Lemma draws_run l : forall p p', forallb stays l = true -> existsb draws l = true -> run p l = Ok p' -> p_open p' = true /\ p_tmp p' <> [].
Proof.
  induction l as [|k l IH]; intros p p' S D H; [discriminate|]. cbn [forallb existsb run] in *. apply andb_true_iff in S as [S1 S2]. apply bind_ok in H as (q & H1 & H2).
  apply orb_true_iff in D as [D|D]; [|exact (IH q p' S2 D H2)]. destruct (draws_step p k q D H1) as [O T]. destruct (kept_run l q p' S2 H2) as [_ _ (t & X) O2 _ _ _ _ _]. split; [exact (O2 O)|].
  rewrite X. intros Y. apply app_eq_nil in Y. tauto.
Qed.
Lemma session_stays w b l w' : session w b l w' -> forallb stays l = true.
Proof. induction 1 as [|w b k l w' R _ IH]; [reflexivity|]. cbn [forallb]. rewrite IH, andb_true_r. destruct k; try reflexivity; contradiction R. Qed.

(** ** Resources *)
(** The colours and the font which the painter keeps *)
Definition samec (p p' : painter) : Prop := c_fill (p_gc p') = c_fill (p_gc p) /\ c_stroke (p_gc p') = c_stroke (p_gc p) /\ c_font (p_tc p') = c_font (p_tc p).
Lemma samec_refl p : samec p p.
Proof. unfold samec. tauto. Qed.
Lemma samec_trans p q r : samec p q -> samec q r -> samec p r.
Proof. unfold samec. intros (A & B & C) (A' & B' & C'). repeat split; congruence. Qed.
Lemma samec_check p p' : check_stream p = Ok p' -> samec p p' /\ True.
Proof.
  unfold check_stream. destruct (p_open p); [intros E; apply ok_inj in E; subst; split; [apply samec_refl|exact Logic.I]|]. destruct (p_canvas p); [|discriminate].
  intros E. apply ok_inj in E. subst. split; [unfold samec; cbn; tauto|exact Logic.I].
Qed.
Lemma samec_write t p : samec p (write_tmp t p).
Proof. unfold samec, write_tmp. cbn. tauto. Qed.
Lemma samec_emit t p p' : emit t p = Ok p' -> samec p p' /\ True.
Proof. unfold emit. intros H. apply bind_ok in H as (q & H1 & H2). apply ok_inj in H2. subst p'. split; [|exact Logic.I]. exact (samec_trans _ _ _ (proj1 (samec_check p q H1)) (samec_write t q)). Qed.
Lemma samec_add ty n o p p' : add_to_resources ty n o p = Ok p' -> samec p p' /\ True.
Proof. unfold add_to_resources. destruct (p_canvas p); [|discriminate]. intros E. apply ok_inj in E. subst. split; [unfold samec; cbn; tauto|exact Logic.I]. Qed.
Lemma samec_gc g p : c_fill g = c_fill (p_gc p) -> c_stroke g = c_stroke (p_gc p) -> samec p (set_gc g p).
Proof. unfold samec. cbn. tauto. Qed.
Lemma samec_tc t p : c_font t = c_font (p_tc p) -> samec p (set_tc t p).
Proof. unfold samec. cbn. tauto. Qed.
Lemma samec_text t p : samec p (set_text t p).
Proof. unfold samec. cbn. tauto. Qed.
Lemma samec_tab t p : samec p (set_tab t p).
Proof. unfold samec. cbn. tauto. Qed.
Lemma samec_points a b c p : samec p (set_points a b c p).
Proof. unfold samec. cbn. tauto. Qed.
Lemma samec_all l : forall p p', (forall f q q', In f l -> f q = Ok q' -> samec q q') -> all_of l p = Ok p' -> samec p p'.
Proof.
  induction l as [|f l IH]; intros p p' H E; [apply ok_inj in E; subst; apply samec_refl|]. cbn [all_of] in E. apply bind_ok in E as (q & E1 & E2).
  apply (samec_trans _ q); [exact (H f p q (or_introl eq_refl) E1)|]. apply IH; [|exact E2]. intros g r r' I. apply H. right. exact I.
Qed.
Lemma samec_in_text t p p' : in_text (emit t) p = Ok p' -> samec p p'.
Proof. unfold in_text. destruct (p_text p); intros E; [exact (proj1 (samec_emit t p p' E))|apply ok_inj in E; subst; apply samec_refl]. Qed.
Lemma samec_state p p' : write_text_state p = Ok p' -> samec p p'.
Proof.
  intros H. unfold write_text_state in H.
  apply bind_ok in H as (q1 & H1 & H). apply bind_ok in H as (q2 & H2 & H). apply bind_ok in H as (q3 & H3 & H). apply bind_ok in H as (q4 & H4 & H).
  assert (X : forall (c : bool) t a a', (if c then Ok a else emit t a) = Ok a' -> samec a a') by (intros [|] t a a' E; [apply ok_inj in E; subst; apply samec_refl|exact (proj1 (samec_emit t a a' E))]).
  apply (samec_trans _ q1). { destruct (c_font (p_tc p)); [exact (proj1 (samec_emit _ _ _ H1))|apply ok_inj in H1; subst; apply samec_refl]. }
  apply (samec_trans _ q2); [exact (X _ _ _ _ H2)|]. apply (samec_trans _ q3); [exact (X _ _ _ _ H3)|]. apply (samec_trans _ q4); [exact (X _ _ _ _ H4)|]. exact (X _ _ _ _ H).
Qed.
Lemma samec_step p k p' : (match k with KCanvas _ | KFinish | KFill _ | KStroke _ | KFont _ _ => false | _ => true end) = true -> step p k = Ok p' -> samec p p'.
Proof.
  intros S H. destruct k; try discriminate S; cbn [step] in H.
  all: try exact (proj1 (samec_emit _ _ _ H)).
  all: try (apply ok_inj in H; subst; first [apply samec_write|apply samec_tab]).
  - unfold set_matrix in H. destruct (qs_eqb _ _); [apply ok_inj in H; subst; apply samec_refl|]. apply (samec_trans _ _ _ (samec_gc _ p eq_refl eq_refl) (proj1 (samec_emit _ _ _ H))).
  - unfold set_width in H. destruct (Qeq_bool _ _); [apply ok_inj in H; subst; apply samec_refl|]. apply (samec_trans _ _ _ (samec_gc _ p eq_refl eq_refl) (proj1 (samec_emit _ _ _ H))).
  - unfold set_miter in H. destruct (Qeq_bool _ _); [apply ok_inj in H; subst; apply samec_refl|]. apply (samec_trans _ _ _ (samec_gc _ p eq_refl eq_refl) (proj1 (samec_emit _ _ _ H))).
  - unfold set_cap in H. destruct (_ =? _); [apply ok_inj in H; subst; apply samec_refl|]. apply (samec_trans _ _ _ (samec_gc _ p eq_refl eq_refl) (proj1 (samec_emit _ _ _ H))).
  - unfold set_join in H. destruct (_ =? _); [apply ok_inj in H; subst; apply samec_refl|]. apply (samec_trans _ _ _ (samec_gc _ p eq_refl eq_refl) (proj1 (samec_emit _ _ _ H))).
  - unfold set_intent in H. destruct (beq _ _); [apply ok_inj in H; subst; apply samec_refl|]. apply (samec_trans _ _ _ (samec_gc _ p eq_refl eq_refl) (proj1 (samec_emit _ _ _ H))).
  - unfold stroke_style in H. apply bind_ok in H as (q & H1 & H). apply bind_ok in H as (t & _ & H). apply ok_inj in H. subst. apply (samec_trans _ q); [exact (proj1 (samec_check _ _ H1))|apply samec_write].
  - unfold set_ext in H. apply bind_ok in H as (q & H1 & H). apply bind_ok in H as (q2 & H2 & H). apply ok_inj in H. subst. apply (samec_trans _ q); [exact (proj1 (samec_check _ _ H1))|].
    apply (samec_trans _ q2); [exact (proj1 (samec_add _ _ _ _ _ H2))|apply samec_write].
  - unfold rectangle in H. destruct (_ || _); [|exact (proj1 (samec_emit _ _ _ H))]. revert H. apply samec_all. intros f q q' I.
    cbn [In] in I. destruct I as [<-|I]; [intros E; exact (proj1 (samec_check _ _ E))|]. repeat (destruct I as [<-|I]; [intros E; exact (proj1 (samec_emit _ _ _ E))|]). contradiction.
  - unfold circle in H. revert H. apply samec_all. intros f q q' I.
    cbn [In] in I. destruct I as [<-|I]; [intros E; exact (proj1 (samec_check _ _ E))|]. repeat (destruct I as [<-|I]; [intros E; exact (proj1 (samec_emit _ _ _ E))|]). contradiction.
  - unfold set_scale, put_scale in H. destruct (Qeq_bool _ _); [apply ok_inj in H; subst; apply samec_refl|]. exact (samec_trans _ _ _ (samec_tc _ p eq_refl) (samec_in_text _ _ _ H)).
  - unfold set_char, put_char in H. destruct (Qeq_bool _ _); [apply ok_inj in H; subst; apply samec_refl|]. exact (samec_trans _ _ _ (samec_tc _ p eq_refl) (samec_in_text _ _ _ H)).
  - unfold set_wspace, put_wspace in H. destruct (Qeq_bool _ _); [apply ok_inj in H; subst; apply samec_refl|]. exact (samec_trans _ _ _ (samec_tc _ p eq_refl) (samec_in_text _ _ _ H)).
  - unfold set_mode, put_mode in H. destruct (_ =? _); [apply ok_inj in H; subst; apply samec_refl|]. exact (samec_trans _ _ _ (samec_tc _ p eq_refl) (samec_in_text _ _ _ H)).
  - unfold draw_text in H. apply bind_ok in H as (q & H1 & H). apply bind_ok in H as (u & _ & H). apply bind_ok in H as (f & _ & H). apply bind_ok in H as (q2 & H2 & H). apply ok_inj in H. subst.
    apply (samec_trans _ q); [exact (proj1 (samec_check _ _ H1))|]. refine (samec_trans _ _ _ (samec_trans _ _ _ (samec_write _ q) (samec_state _ _ H2)) _). eapply samec_trans; apply samec_write.
  - unfold draw_aligned in H. destruct (Qle_bool _ _); [apply ok_inj in H; subst; apply samec_refl|].
    apply bind_ok in H as (q & H1 & H). apply bind_ok in H as (u & _ & H). apply bind_ok in H as (f & _ & H). apply bind_ok in H as (q2 & H2 & H). apply ok_inj in H. subst.
    apply (samec_trans _ q); [exact (proj1 (samec_check _ _ H1))|]. refine (samec_trans _ _ _ (samec_trans _ _ _ (samec_write _ q) (samec_state _ _ H2)) _). eapply samec_trans; apply samec_write.
  - unfold draw_multiline in H. apply bind_ok in H as (q & H1 & H). apply bind_ok in H as (f & _ & H). apply bind_ok in H as (u & _ & H). apply (samec_trans _ q); [exact (proj1 (samec_check _ _ H1))|].
    destruct (_ || _); [apply ok_inj in H; subst; apply samec_refl|]. apply bind_ok in H as (q2 & H2 & H). refine (samec_trans _ _ _ (samec_trans _ _ _ (samec_write _ q) (samec_state _ _ H2)) _).
    apply bind_ok in H as (q3 & H3 & H). apply (samec_trans _ q3); [exact (proj1 (samec_emit _ _ _ H3))|]. apply bind_ok in H as (q4 & H4 & H).
    apply (samec_trans _ q4); [destruct clip; [exact (proj1 (samec_emit _ _ _ H4))|apply ok_inj in H4; subst; apply samec_refl]|]. apply bind_ok in H as (q5 & H5 & H). apply ok_inj in H. subst p'.
    apply (samec_trans _ q5); [|apply samec_write]. match type of H5 with emit _ ?z = _ => apply (samec_trans _ z) end; [|exact (proj1 (samec_emit _ _ _ H5))].
    destruct (expand_tabs _ _); [apply samec_refl|apply samec_write].
  - unfold begin_text in H. apply bind_ok in H as (q & H1 & H). apply bind_ok in H as (u & _ & H). apply ok_inj in H. subst. apply (samec_trans _ q); [exact (proj1 (samec_check _ _ H1))|]. exact (samec_trans _ _ _ (samec_write _ q) (samec_text _ _)).
  - unfold move_text in H. apply bind_ok in H as (q & H1 & H). apply bind_ok in H as (u & _ & H). apply ok_inj in H. subst. apply (samec_trans _ q); [exact (proj1 (samec_check _ _ H1))|]. apply samec_write.
  - unfold add_text in H. apply bind_ok in H as (q & H1 & H). apply bind_ok in H as (u & _ & H). apply bind_ok in H as (v & _ & H). apply ok_inj in H. subst. apply (samec_trans _ q); [exact (proj1 (samec_check _ _ H1))|]. apply samec_write.
  - unfold end_text in H. apply bind_ok in H as (q & H1 & H). apply bind_ok in H as (u & _ & H). apply ok_inj in H. subst. apply (samec_trans _ q); [exact (proj1 (samec_check _ _ H1))|]. exact (samec_trans _ _ _ (samec_write _ q) (samec_text _ _)).
  - unfold draw_xobject in H. apply bind_ok in H as (q & H1 & H). apply bind_ok in H as (q2 & H2 & H). apply ok_inj in H. subst. apply (samec_trans _ q); [exact (proj1 (samec_check _ _ H1))|].
    apply (samec_trans _ q2); [exact (proj1 (samec_add _ _ _ _ _ H2))|apply samec_write].
Qed.

Definition same_fonts (fs : list font) : Prop := forall f g, In f fs -> In g fs -> f_id f = f_id g -> f = g.
Record res_ok (fs : list font) (x : Z) (p : painter) : Prop := mk_ro
  { ro_canvas : p_canvas p = Some x; ro_font : forall f, c_font (p_tc p) = Some f -> In f fs /\ has_resource (p_world p x) (bs "Font", f_name f);
    ro_fill : incl (color_needs (c_fill (p_gc p))) (keys (p_world p x)); ro_stroke : incl (color_needs (c_stroke (p_gc p))) (keys (p_world p x)) }.
Lemma res_kept fs x p p' : kept p p' -> samec p p' -> res_ok fs x p -> res_ok fs x p'.
Proof.
  intros K (G1 & G2 & G3) [A B C D]. pose proof (kp_keys _ _ K x A) as I. constructor; rewrite ?G1, ?G2, ?G3.
  - rewrite (kp_canvas _ _ K). exact A.
  - intros f E. destruct (B f E) as [B1 B2]. split; [exact B1|]. apply I. exact B2.
  - exact (incl_tran C I).
  - exact (incl_tran D I).
Qed.
Lemma needs_eqb a b : color_eqb a b = true -> color_needs a = color_needs b.
Proof.
  unfold color_eqb. destruct (color_parts a) as [[i n] l] eqn:EA. destruct (color_parts b) as [[j n'] l'] eqn:EB. intros H. apply andb_true_iff in H as [H _]. apply andb_true_iff in H as [H1 H2].
  apply Z.eqb_eq in H1. apply beq_eq in H2. subst j n'. destruct a, b; cbn [color_parts] in EA, EB; inversion EA; inversion EB; subst; try discriminate; try reflexivity.
Qed.

Lemma res_color st c p p' x : set_color st c p = Ok p' -> p_canvas p = Some x -> incl (color_needs c) (keys (p_world p' x)) /\ samec p p'.
Proof.
  unfold set_color. intros H C. apply bind_ok in H as (q & H1 & H). apply bind_ok in H as (q2 & H2 & H). apply bind_ok in H as (t & _ & H). apply ok_inj in H. subst p'.
  destruct (kept_check p q H1) as (K & _). pose proof (proj1 (samec_check p q H1)) as SC. rewrite <- (kp_canvas _ _ K) in C. cbn [write_tmp set_tmp p_world].
  assert (X : incl (color_needs c) (keys (p_world q2 x)) /\ samec q q2).
  { unfold color_resource in H2. destruct c; cbn [color_needs]; try (apply ok_inj in H2; subst; split; [apply incl_nil_l|apply samec_refl]).
    - destruct (kept_add _ _ _ _ _ H2) as (_ & _ & _ & x0 & C0 & I). rewrite C in C0. injection C0 as <-. split; [intros key [<-|[]]; exact I|exact (proj1 (samec_add _ _ _ _ _ H2))].
    - destruct (kept_add _ _ _ _ _ H2) as (_ & _ & _ & x0 & C0 & I). rewrite C in C0. injection C0 as <-. split; [intros key [<-|[]]; exact I|exact (proj1 (samec_add _ _ _ _ _ H2))]. }
  split; [exact (proj1 X)|]. exact (samec_trans _ _ _ SC (samec_trans _ _ _ (proj2 X) (samec_write t q2))).
Qed.
Lemma res_step fs x p k p' : same_fonts fs -> (forall f s, k = KFont f s -> In f fs) -> res_ok fs x p -> stays k = true -> step p k = Ok p' -> res_ok fs x p' /\ forall key, In key (needs k) -> has_resource (p_world p' x) key.
Proof.
  intros SF KF RO S H. pose proof (kept_step p k p' S H) as K. pose proof (kp_keys _ _ K x (ro_canvas _ _ _ RO)) as I.
  assert (X : (match k with KCanvas _ | KFinish | KFill _ | KStroke _ | KFont _ _ => false | _ => true end) = true -> res_ok fs x p') by (intros Y; exact (res_kept fs x p p' K (samec_step p k p' Y H) RO)).
  destruct k; try discriminate S; try solve [split; [apply X; reflexivity|intros key []]]; clear X; cbn [step needs] in *.
  - unfold set_fill in H. destruct (color_eqb _ _) eqn:E.
    + apply ok_inj in H. subst p'. split; [exact RO|]. rewrite <- (needs_eqb _ _ E). exact (ro_fill _ _ _ RO).
    + destruct (res_color _ _ _ _ x H (ro_canvas _ _ _ RO)) as [N (S1 & S2 & S3)]. split; [|exact N]. destruct RO as [A B C D]. constructor; rewrite ?S1, ?S2, ?S3; auto.
      * rewrite (kp_canvas _ _ K). exact A.
      * intros f F. destruct (B f F) as [B1 B2]. split; [exact B1|]. apply I. exact B2.
      * exact (incl_tran D I).
  - unfold set_stroke in H. destruct (color_eqb _ _) eqn:E.
    + apply ok_inj in H. subst p'. split; [exact RO|]. rewrite <- (needs_eqb _ _ E). exact (ro_stroke _ _ _ RO).
    + destruct (res_color _ _ _ _ x H (ro_canvas _ _ _ RO)) as [N (S1 & S2 & S3)]. split; [|exact N]. destruct RO as [A B C D]. constructor; rewrite ?S1, ?S2, ?S3; auto.
      * rewrite (kp_canvas _ _ K). exact A.
      * intros f F. destruct (B f F) as [B1 B2]. split; [exact B1|]. apply I. exact B2.
      * exact (incl_tran C I).
  - assert (Y : res_ok fs x p') by (exact (res_kept fs x p p' K (samec_step p (KExt n o) p' eq_refl H) RO)). split; [exact Y|]. intros key [<-|[]].
    unfold set_ext in H. apply bind_ok in H as (q & H1 & H). apply bind_ok in H as (q2 & H2 & H). apply ok_inj in H. subst. destruct (kept_add _ _ _ _ _ H2) as (_ & _ & _ & x0 & C0 & J).
    rewrite (kp_canvas _ _ (proj1 (kept_check _ _ H1))), (ro_canvas _ _ _ RO) in C0. injection C0 as <-. exact J.
  - unfold set_font in H. destruct (_ && _) eqn:E.
    + apply ok_inj in H. subst p'. split; [exact RO|]. intros key [<-|[]]. apply andb_true_iff in E as [E _]. destruct (c_font (p_tc p)) as [g|] eqn:F; [|discriminate]. apply Z.eqb_eq in E.
      destruct (ro_font _ _ _ RO g F) as [J1 J2]. assert (g = f) by (apply SF; [exact J1|exact (KF f size eq_refl)|exact E]). subst g. exact J2.
    + apply bind_ok in H as (q & H1 & H). destruct (kept_add _ _ _ _ _ H1) as (K1 & _ & _ & x0 & C0 & J). cbn [set_tc p_canvas] in C0. rewrite (ro_canvas _ _ _ RO) in C0. injection C0 as <-.
      assert (K2 : kept q p') by exact (kept_in_text _ _ _ H). assert (CQ : p_canvas q = Some x) by (rewrite (kp_canvas _ _ K1); exact (ro_canvas _ _ _ RO)).
      pose proof (kp_keys _ _ K2 x CQ _ J) as J'. split; [|intros key [<-|[]]; exact J'].
      assert (S2 : samec q p') by exact (samec_in_text _ _ _ H). destruct S2 as (Z1 & Z2 & Z3). destruct (proj1 (samec_add _ _ _ _ _ H1)) as (Y1 & Y2 & Y3). cbn [set_tc p_gc p_tc c_font] in Y1, Y2, Y3.
      destruct RO as [A B C D]. constructor; rewrite ?Z1, ?Z2, ?Z3, ?Y1, ?Y2, ?Y3.
      * rewrite (kp_canvas _ _ K). exact A.
      * intros g G. injection G as <-. split; [exact (KF f size eq_refl)|exact J'].
      * exact (incl_tran C I).
      * exact (incl_tran D I).
  - assert (Y : res_ok fs x p') by (exact (res_kept fs x p p' K (samec_step p (KXObject n o x0 y sx sy) p' eq_refl H) RO)). split; [exact Y|]. intros key [<-|[]].
    unfold draw_xobject in H. apply bind_ok in H as (q & H1 & H). apply bind_ok in H as (q2 & H2 & H). apply ok_inj in H. subst. destruct (kept_add _ _ _ _ _ H2) as (_ & _ & _ & x1 & C0 & J).
    rewrite (kp_canvas _ _ (proj1 (kept_check _ _ H1))), (ro_canvas _ _ _ RO) in C0. injection C0 as <-. exact J.
Qed.
Lemma res_run fs x l : same_fonts fs -> (forall f s, In (KFont f s) l -> In f fs) -> forallb stays l = true -> forall p p', res_ok fs x p -> run p l = Ok p' ->
  res_ok fs x p' /\ forall k key, In k l -> In key (needs k) -> has_resource (p_world p' x) key.
Proof.
  intros SF. induction l as [|k l IH]; intros KF S p p' RO H; [apply ok_inj in H; subst; split; [exact RO|intros k key []]|].
  cbn [forallb] in S. apply andb_true_iff in S as [S1 S2]. cbn [run] in H. apply bind_ok in H as (q & H1 & H2).
  destruct (res_step fs x p k q SF ltac:(intros f s ->; apply (KF f s); left; reflexivity) RO S1 H1) as [RQ NQ].
  destruct (IH ltac:(intros f s I; apply (KF f s); right; exact I) S2 q p' RQ H2) as [RP NP]. split; [exact RP|]. intros k0 key [<-|I] J; [|exact (NP k0 key I J)].
  exact (kp_keys _ _ (kept_run l q p' S2 H2) x (ro_canvas _ _ _ RQ) _ (NQ key J)).
Qed.

(** ** Running after something else *)
Definition frame (s : list (gstate * tstate)) (k : list (list Z)) (e : list event) (m : mstate) : mstate :=
  mk_m (m_g m) (m_t m) (m_stack m ++ s) (m_path m) (m_clip m) (m_text m) (m_marks m ++ k) (e ++ m_events m).
Lemma painted_frame s k e h m m' : painted h m = Some m' -> painted h (frame s k e m) = Some (frame s k e m').
Proof.
  unfold painted. change (no_text (frame s k e m)) with (no_text m). change (has_path (frame s k e m)) with (has_path m). destruct (no_text m && has_path m); [|discriminate].
  cbn [when]. intros E. injection E as <-. f_equal. unfold end_path. cbn [show m_clip frame m_g m_path]. destruct (m_clip m); unfold frame; cbn; rewrite ?app_assoc; reflexivity.
Qed.
Lemma exec_frame s k e args n m m' : exec_op args n m = Some m' -> exec_op args n (frame s k e m) = Some (frame s k e m').
Proof.
  unfold exec_op. change (no_path (frame s k e m)) with (no_path m). change (page_level (frame s k e m)) with (page_level m). change (open_path (frame s k e m)) with (open_path m).
  change (in_path (frame s k e m)) with (in_path m). change (no_text (frame s k e m)) with (no_text m). change (has_path (frame s k e m)) with (has_path m).
  change (m_g (frame s k e m)) with (m_g m). change (m_t (frame s k e m)) with (m_t m). change (m_text (frame s k e m)) with (m_text m).
  change (m_stack (frame s k e m)) with (m_stack m ++ s). change (m_marks (frame s k e m)) with (m_marks m ++ k). cbv zeta.
  repeat match goal with |- (if beq n ?b then _ else _) = _ -> _ => destruct (beq n b) end.
  all: intros H; repeat match type of H with
    | match ?a with _ => _ end = _ => destruct a; try discriminate H
    | painted _ _ = Some _ => apply painted_frame; exact H
    | when ?c _ = Some _ => destruct c; [cbn [when] in H |- *|discriminate H]
    | Some _ = Some _ => injection H as <-
    end.
  all: try discriminate H.
  all: try (unfold frame, set_g, set_t, add_path, set_path, set_clip, set_stack, set_mtext, set_marks, show; cbn; rewrite ?app_assoc; reflexivity).
  unfold end_path. cbn [frame m_clip m_g m_path]. destruct (m_clip m); reflexivity.
Qed.
Lemma execs_frame s k e is : forall m m', execs is m = Some m' -> execs is (frame s k e m) = Some (frame s k e m').
Proof.
  induction is as [|i is IH]; intros m m' H; [injection H as <-; reflexivity|]. cbn [execs] in *. destruct (exec i m) as [m1|] eqn:E; [|discriminate].
  destruct i as [args n|d data]; [|discriminate]. cbn [exec] in *. rewrite (exec_frame s k e args n m m1 E). exact (IH m1 m' H).
Qed.

(** ** One text after the other *)
Lemma stops_app k t : stops k -> stops (k ++ 10 :: t).
Proof. destruct k as [|c k]; cbn [app]; [intros _; left; reflexivity|intros [S|(A & B & C)]; [left; exact S|right; split; [exact A|]; split; [exact B|]; destruct k; discriminate]]. Qed.
Lemma value_app o t k s : value_text o t k -> value_text o t (k ++ 10 :: s).
Proof. intros (fl & A & B & C & D & E). exists fl. split; [exact A|]. split; [exact B|]. split; [exact C|]. split; [exact D|]. intros N. apply stops_app. exact (E N). Qed.
Lemma values_app os t k s : values_text os t k -> values_text os (t ++ 10 :: s) (k ++ 10 :: s).
Proof. induction 1 as [k|ws o t k os k' B V _ IH]; [constructor|]. rewrite <- !app_assoc. apply vt_cons; [exact B|apply value_app; exact V|exact IH]. Qed.
Lemma word_app n t k s : word_text n t k -> word_text n (t ++ 10 :: s) (k ++ 10 :: s).
Proof. intros (ws & -> & B & W & S). exists ws. rewrite <- !app_assoc. split; [reflexivity|]. split; [exact B|]. split; [exact W|]. apply stops_app. exact S. Qed.
Lemma program_app i1 t1 i2 t2 : program_text i1 t1 -> program_text i2 t2 -> program_text (i1 ++ i2) (t1 ++ 10 :: t2).
Proof.
  intros H P2. induction H as [ws B|args n t t1 k is V W N _ IH|es d data t t1 t2' c w k is W1 SD PE V W2 C0 C1 N1 N2 _ IH].
  - cbn [app]. apply program_blank; [exact B|]. apply (program_blank i2 t2 [10]); [repeat constructor|exact P2].
  - cbn [app]. apply (pt_op args n _ (t1 ++ 10 :: t2) (k ++ 10 :: t2)); [apply values_app; exact V|apply word_app; exact W|exact N|exact IH].
  - cbn [app]. apply (pt_image es d data _ (t1 ++ 10 :: t2) (t2' ++ 10 :: t2) c w (k ++ 10 :: t2)); auto; [apply word_app; exact W1|apply values_app; exact V|].
    replace (c :: data ++ 69 :: 73 :: w :: k ++ 10 :: t2) with ((c :: data ++ 69 :: 73 :: w :: k) ++ 10 :: t2) by (cbn [app]; rewrite <- app_assoc; reflexivity). apply word_app. exact W2.
Qed.
Lemma word_q (c : Z) : c = 113 \/ c = 81 -> program_text [IOp [] [c]] [c].
Proof.
  intros H. apply (pt_op [] [c] [c] [c] []); [constructor| |destruct H; subst; discriminate|apply (pt_end []); constructor].
  exists []. split; [reflexivity|]. split; [constructor|]. split; [|destruct H; subst; exact Logic.I || (right; reflexivity) || (left; reflexivity)].
  destruct H; subst; (split; [repeat constructor|split; [apply Nat.leb_le; reflexivity|split; [vm_compute; intuition discriminate|vm_compute; intuition discriminate]]]).
Qed.

(** ** Finishing *)
Definition prior (fl : pflags) (c : canvas) : list (option (list Z)) :=
  if fl_noprior fl then cv_streams c else match copy_to (cv_streams c) with [] => cv_streams c | old => [Some (bs "q" ++ nl ++ old ++ nl ++ bs "Q")] end.
Lemma finish_page fl c0 c own : cv_form c0 = false -> cv_form c = false -> cv_streams c = cv_streams (stream_for_appending fl c0) ->
  cv_streams (set_out fl (out_prior fl (get_out fl c) ++ own) c) = if fl_prepend fl then Some own :: prior fl c0 else prior fl c0 ++ [Some own].
Proof.
  intros F0 F S. unfold stream_for_appending in S. rewrite F0 in S. cbn [cv_streams] in S. unfold set_out, get_out, is_first. rewrite F. cbn [orb cv_streams].
  assert (L : (if fl_noprior fl then cv_streams c0 else match copy_to (cv_streams c0) with [] => cv_streams c0 | _ :: _ => [Some (bs "q" ++ nl ++ copy_to (cv_streams c0) ++ nl ++ bs "Q")] end) = prior fl c0).
  { unfold prior. destruct (fl_noprior fl); [reflexivity|]. destruct (copy_to (cv_streams c0)); reflexivity. }
  rewrite L in S. destruct (fl_prepend fl); rewrite S.
  - cbn [stream_text]. unfold out_prior. destruct (fl_noprior fl); reflexivity.
  - rewrite last_last, removelast_last. cbn [stream_text]. unfold out_prior. destruct (fl_noprior fl); reflexivity.
Qed.
Lemma new_canvas x fl w0 : set_canvas x (new_painter fl w0) = mk_pt fl (Some x) false [] first_gc first_tc 4 false (0, 0)%Q (0, 0)%Q (0, 0)%Q w0.
Proof. reflexivity. Qed.
Lemma run_app l1 l2 p : run p (l1 ++ l2) = do q <- run p l1; run q l2.
Proof. revert p. induction l1 as [|k l1 IH]; intros p; [reflexivity|]. cbn [app run]. destruct (step p k); try reflexivity. cbn [bind]. apply IH. Qed.
(** what is in the streams of a page after a session *)
Lemma session_streams fl w0 x l p' : cv_form (w0 x) = false -> forallb stays l = true -> existsb draws l = true -> run (set_canvas x (new_painter fl w0)) l = Ok p' ->
  run (new_painter fl w0) (KCanvas x :: l ++ [KFinish]) = Ok (finish_drawing p') /\ p_tmp p' <> [] /\
  cv_streams (p_world (finish_drawing p') x) = (if fl_prepend fl then Some (out_own fl (p_tmp p')) :: prior fl (w0 x) else prior fl (w0 x) ++ [Some (out_own fl (p_tmp p'))]) /\
  (forall y, y <> x -> p_world (finish_drawing p') y = w0 y).
Proof.
  intros F S D H. pose proof (kept_run l _ p' S H) as K. destruct (draws_run l _ p' S D H) as [O T]. rewrite new_canvas in *. destruct K as [K1 K2 _ _ _ K6 K7 K8 _]. cbn [p_flags p_canvas p_open p_world] in *.
  split; [cbn [run step app bind]; rewrite run_app, new_canvas, H; reflexivity|]. split; [exact T|].
  specialize (K7 x eq_refl). specialize (K8 x eq_refl). rewrite O in K8. cbn [andb negb] in K8. rewrite F in K7. unfold finish_drawing, finish. rewrite O, K2, K1. cbn [set_open set_canvas_field set_tmp set_world p_world]. split.
  - rewrite upd_same. apply finish_page; assumption.
  - intros y N. rewrite upd_other by exact N. apply (K6 x y eq_refl N).
Qed.
Lemma texts_app a b : texts (a ++ b) = texts a ++ texts b.
Proof. unfold texts. apply flat_map_app. Qed.
Lemma copy_texts l : copy_to l = List.concat (texts l).
Proof. induction l as [|[[|c t]|] l IH]; [reflexivity|exact IH| |exact IH]. unfold copy_to, texts in *. cbn [flat_map stream_text]. rewrite IH. reflexivity. Qed.
Lemma own_ne fl t : t <> [] -> out_own fl t <> [].
Proof. unfold out_own. destruct (fl_nosave fl); [auto|discriminate]. Qed.
Lemma texts_own o : o <> [] -> texts [Some o] = [o].
Proof. destruct o; [congruence|reflexivity]. Qed.
Definition saved (is : list instr) : list instr := IOp [] (bs "q") :: is ++ [IOp [] (bs "Q")].
(** a program between q and Q *)
Lemma saved_runs is m e : execs is begin_m = Some m -> complete m ->
  forall m0, m_g m0 = iso_g -> m_t m0 = iso_t -> m_stack m0 = [] -> m_path m0 = [] -> m_clip m0 = None -> m_text m0 = None -> m_marks m0 = [] -> m_events m0 = e ->
  execs (saved is) m0 = Some (mk_m iso_g iso_t [] [] None None [] (e ++ m_events m)).
Proof.
  intros E (C1 & C2 & C3) m0 A1 A2 A3 A4 A5 A6 A7 A8. destruct m0. cbn in A1, A2, A3, A4, A5, A6, A7, A8. subst. unfold saved. cbn [execs exec]. unfold exec_op at 1. bool_ops. cbn [page_level no_path no_text m_path m_clip m_text andb when].
  pose proof (execs_frame [(iso_g, iso_t)] [] e is begin_m m E) as X. unfold frame at 1 in X. cbn [m_g m_t m_stack m_path m_clip m_text m_marks m_events begin_m app] in X. rewrite app_nil_r in X.
  rewrite execs_app. unfold set_stack. cbn [m_g m_t m_stack m_path m_clip m_text m_marks m_events]. rewrite X. unfold frame. rewrite C2, C3. cbn [app execs exec]. unfold exec_op. bool_ops. cbn [m_stack].
  match goal with |- context [page_level ?z] => change (page_level z) with (page_level m) end. rewrite C1. cbn [when].
  unfold page_level, no_path, no_text in C1. destruct (m_path m) eqn:P1; [|discriminate]. destruct (m_clip m) eqn:P2; [discriminate|]. destruct (m_text m) eqn:P3; [discriminate|]. reflexivity.
Qed.
Lemma plain_runs is m e : execs is begin_m = Some m -> complete m ->
  forall m0, m_g m0 = iso_g -> m_t m0 = iso_t -> m_stack m0 = [] -> m_path m0 = [] -> m_clip m0 = None -> m_text m0 = None -> m_marks m0 = [] -> m_events m0 = e ->
  execs is m0 = Some (mk_m (m_g m) (m_t m) [] [] None None [] (e ++ m_events m)).
Proof.
  intros E (C1 & C2 & C3) m0 A1 A2 A3 A4 A5 A6 A7 A8. destruct m0. cbn in A1, A2, A3, A4, A5, A6, A7, A8. subst.
  pose proof (execs_frame [] [] e is begin_m m E) as X. unfold frame at 1 in X. cbn [m_g m_t m_stack m_path m_clip m_text m_marks m_events begin_m app] in X. rewrite app_nil_r in X. rewrite X. unfold frame. rewrite C2, C3.
  unfold page_level, no_path, no_text in C1. destruct (m_path m) eqn:P1; [|discriminate]. destruct (m_clip m) eqn:P2; [discriminate|]. destruct (m_text m) eqn:P3; [discriminate|]. reflexivity.
Qed.
Lemma q_text is t : program_text is t -> program_text (saved is) (bs "q" ++ nl ++ t ++ nl ++ bs "Q").
Proof.
  intros P. unfold saved. apply (piece_bare (bs "q") 10 eq_refl eq_refl (is ++ [IOp [] (bs "Q")])). exact (program_app is t _ _ P (word_q 81 (or_intror eq_refl))).
Qed.
Lemma q_piece is t : piece is t -> program_text (saved is) (bs "q" ++ nl ++ t ++ bs "Q" ++ nl).
Proof.
  intros P. unfold saved. apply (piece_bare (bs "q") 10 eq_refl eq_refl (is ++ [IOp [] (bs "Q")])). apply P. apply piece_program. apply piece_bare; reflexivity.
Qed.
Lemma own_program fl is t : piece is t -> program_text (if fl_nosave fl then is else saved is) (out_own fl t).
Proof. intros P. unfold out_own. destruct (fl_nosave fl); [apply piece_program; exact P|apply q_piece; exact P]. Qed.
Lemma one_text (l : list (list Z)) : (length l <= 1)%nat -> l = [] \/ exists t, l = [t].
Proof. destruct l as [|t [|u r]]; cbn [length]; intros H; [left; reflexivity|right; exists t; reflexivity|lia]. Qed.
Lemma write_ne P fl o t : wf_obj P o -> write fl o = Ok t -> t <> [].
Proof.
  assert (A : forall u v : list Z, v <> [] -> u ++ v <> []) by (intros u v N Y; apply app_eq_nil in Y; tauto).
  intros WF W. destruct o; cbn [write] in W; try (apply ok_inj in W; subst t).
  - apply A. discriminate.
  - apply A. destruct b; discriminate.
  - apply A. apply dec_signed_regular.
  - apply A. rewrite real_text_ftext. apply real_text_regular. destruct WF as [[K _] _]. rewrite micro_canon by lia. apply Z.mul_nonneg_nonneg; [lia|apply Z.pow_nonneg; lia].
  - unfold write_name in W. apply bind_ok in W as (e & _ & W). apply ok_inj in W. subst. discriminate.
  - unfold write_string. destruct hex; discriminate.
  - unfold write_ref. apply A, A. discriminate.
  - apply bind_ok in W as (e & _ & W). apply ok_inj in W. subst. destruct (wclean fl); discriminate.
  - apply bind_ok in W as (e & _ & W). apply bind_ok in W as (e' & _ & W). apply ok_inj in W. subst. destruct (wclean fl); discriminate.
Qed.
Lemma empty_program is : program_text is [] -> is = [].
Proof.
  intros H. inversion H as [ws B E1 E2|args n t t1 k is0 V W N P E1 E2|es d data t t1 t2 c w k is0 W1 SD PE V W2 C0 C1 N1 N2 P E1 E2]; subst; [reflexivity|exfalso|exfalso].
  - inversion V as [k0 A1 A2 A3|ws o t k0 os k' B VT VS A1 A2 A3]; subst.
    + destruct W as (ws & Y & _ & (_ & _ & _ & NE) & _). symmetry in Y. apply app_eq_nil in Y as [_ Y]. apply app_eq_nil in Y as [Y _]. subst n. exact NE.
    + apply app_eq_nil in A2 as [_ A2]. apply app_eq_nil in A2 as [A2 _]. subst t. destruct VT as (fl & A & W0 & C & _). exact (write_ne _ _ _ _ C W0 eq_refl).
  - destruct W1 as (ws & Y & _). symmetry in Y. apply app_eq_nil in Y as [_ Y]. apply app_eq_nil in Y as [Y _]. discriminate.
Qed.
Definition own_is (fl : pflags) (is : list instr) : list instr := if fl_nosave fl then is else saved is.
Lemma own_runs fl is m e : execs is begin_m = Some m -> complete m ->
  forall m0, m_g m0 = iso_g -> m_t m0 = iso_t -> m_stack m0 = [] -> m_path m0 = [] -> m_clip m0 = None -> m_text m0 = None -> m_marks m0 = [] -> m_events m0 = e ->
  exists m1, execs (own_is fl is) m0 = Some m1 /\ complete m1 /\ m_events m1 = e ++ m_events m.
Proof.
  intros E C m0 A1 A2 A3 A4 A5 A6 A7 A8. unfold own_is. destruct (fl_nosave fl); eexists.
  - split; [exact (plain_runs is m e E C m0 A1 A2 A3 A4 A5 A6 A7 A8)|]. split; [split; [reflexivity|split; reflexivity]|reflexivity].
  - split; [exact (saved_runs is m e E C m0 A1 A2 A3 A4 A5 A6 A7 A8)|]. split; [split; [reflexivity|split; reflexivity]|reflexivity].
Qed.
Lemma texts_ne l t : In t (texts l) -> t <> [].
Proof. unfold texts. intros H. apply in_flat_map in H as (o & _ & H). destruct o as [[|c r]|]; cbn in H; try tauto. destruct H as [<-|[]]. discriminate. Qed.
Lemma page_finish fl c0 old own is m c : page_shows c0 old -> (length (texts (cv_streams c0)) <= 1)%nat -> (fl_noprior fl = true -> texts (cv_streams c0) = []) ->
  (fl_prepend fl = true -> fl_nosave fl = false) -> own <> [] -> piece is own -> execs is begin_m = Some m -> complete m ->
  cv_streams c = (if fl_prepend fl then Some (out_own fl own) :: prior fl c0 else prior fl c0 ++ [Some (out_own fl own)]) ->
  page_shows c (if fl_prepend fl then m_events m ++ old else old ++ m_events m).
Proof.
  intros (is0 & m0 & P0 & E0 & C0 & EV) L NP PS NE PI E C S. pose proof (own_program fl is own PI) as PO. fold (own_is fl is) in PO. pose proof (own_ne fl own NE) as ON. unfold page_shows. rewrite S. clear S.
  destruct (one_text _ L) as [T|[t T]].
  - assert (PR : texts (prior fl c0) = []). { unfold prior. destruct (fl_noprior fl); [exact T|]. rewrite copy_texts, T. exact T. }
    assert (OL : old = []). { rewrite T in P0. apply empty_program in P0. subst is0. cbn in E0. injection E0 as <-. symmetry. exact EV. }
    destruct (own_runs fl is m [] E C begin_m eq_refl eq_refl eq_refl eq_refl eq_refl eq_refl eq_refl eq_refl) as (m1 & R1 & R2 & R3). exists (own_is fl is), m1. rewrite OL.
    split; [|split; [exact R1|split; [exact R2|rewrite R3; destruct (fl_prepend fl); [rewrite app_nil_r|]; reflexivity]]].
    assert (X : texts (if fl_prepend fl then Some (out_own fl own) :: prior fl c0 else prior fl c0 ++ [Some (out_own fl own)]) = [out_own fl own]).
    { destruct (fl_prepend fl).
      - change (Some (out_own fl own) :: prior fl c0) with ([Some (out_own fl own)] ++ prior fl c0). rewrite texts_app, PR, (texts_own _ ON). reflexivity.
      - rewrite texts_app, PR, (texts_own _ ON). reflexivity. }
    rewrite X. exact PO.
  - assert (TN : t <> []) by (apply (texts_ne (cv_streams c0)); rewrite T; left; reflexivity).
    destruct (fl_noprior fl) eqn:N; [specialize (NP eq_refl); congruence|].
    assert (PR : texts (prior fl c0) = [bs "q" ++ nl ++ t ++ nl ++ bs "Q"]).
    { unfold prior. rewrite N, copy_texts, T. cbn [List.concat]. rewrite app_nil_r. destruct t; [congruence|]. reflexivity. }
    rewrite T in P0. change (joined [t]) with t in P0. pose proof (q_text is0 t P0) as Q0.
    destruct (fl_prepend fl).
    + change (Some (out_own fl own) :: prior fl c0) with ([Some (out_own fl own)] ++ prior fl c0). rewrite texts_app, PR, (texts_own _ ON).
      unfold own_is in PO. rewrite (PS eq_refl) in PO.
      exists (saved is ++ saved is0), (mk_m iso_g iso_t [] [] None None [] (m_events m ++ m_events m0)).
      split; [exact (program_app _ _ _ _ PO Q0)|]. split; [|split; [split; [reflexivity|split; reflexivity]|cbn [m_events]; congruence]].
      rewrite execs_app. rewrite (saved_runs is m [] E C begin_m) by reflexivity. rewrite (saved_runs is0 m0 (m_events m) E0 C0) by reflexivity. reflexivity.
    + rewrite texts_app, PR, (texts_own _ ON). pose proof (saved_runs is0 m0 [] E0 C0 begin_m eq_refl eq_refl eq_refl eq_refl eq_refl eq_refl eq_refl eq_refl) as SR.
      destruct (own_runs fl is m (m_events m0) E C (mk_m iso_g iso_t [] [] None None [] ([] ++ m_events m0)) eq_refl eq_refl eq_refl eq_refl eq_refl eq_refl eq_refl eq_refl) as (m1 & R1 & R2 & R3).
      exists (saved is0 ++ own_is fl is), m1. split; [exact (program_app _ _ _ _ Q0 PO)|]. split; [rewrite execs_app, SR; exact R1|]. split; [exact R2|]. rewrite R3, EV. reflexivity.
Qed.
Theorem page_painted fl w0 x l w' old : cv_form (w0 x) = false -> (length (texts (cv_streams (w0 x))) <= 1)%nat -> page_shows (w0 x) old ->
  session new_wanted new_book l w' -> complete (w_m w') -> existsb draws l = true -> (fl_noprior fl = true -> texts (cv_streams (w0 x)) = []) -> (fl_prepend fl = true -> fl_nosave fl = false) ->
  exists p', run (new_painter fl w0) (KCanvas x :: l ++ [KFinish]) = Ok p' /\
    page_shows (p_world p' x) (if fl_prepend fl then m_events (w_m w') ++ old else old ++ m_events (w_m w')) /\ (forall y, y <> x -> p_world p' y = w0 y).
Proof.
  intros F L SH SS C D NP PS. destruct (session_goes x _ _ l w' SS _ _ (rel_new x fl w0)) as (p' & t & is & m' & b' & R & T & PI & E & RL).
  destruct (session_streams fl w0 x l p' F (session_stays _ _ _ _ SS) D R) as (R' & TN & ST & OT). exists (finish_drawing p'). split; [exact R'|]. split; [|exact OT].
  rewrite new_canvas in T. cbn [p_tmp app] in T. rewrite T in *. rewrite <- (r_events _ _ _ _ _ RL).
  apply (page_finish fl (w0 x) old t is m' _ SH L NP PS TN PI E); [|exact ST].
  destruct C as (C1 & C2 & C3). split; [|split].
  - unfold page_level, no_path, no_text in *. rewrite (r_path _ _ _ _ _ RL), (r_clip _ _ _ _ _ RL), (r_text _ _ _ _ _ RL). rewrite (r_wclip _ _ _ _ _ RL) in C1. exact C1.
  - pose proof (r_stack _ _ _ _ _ RL) as X. rewrite C2 in X. destruct (m_stack m'); [reflexivity|discriminate].
  - rewrite (r_marks _ _ _ _ _ RL). exact C3.
Qed.
