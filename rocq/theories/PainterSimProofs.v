(** Proofs call by call that the painter does what is wanted. *)
From Coq Require Import String QArith.
From Verif Require Import Base TokModel WriteModel TokProofs ObjSpec ChainProofs CMapSpec ContentsModel ContentsSpec PainterModel PainterSpec PainterTextProofs PainterProofs.
Local Open Scope Z_scope.

Ltac rel R := destruct R; constructor; flds; try assumption.
Ltac one := apply execs_one; cbn [exec]; unfold exec_op; bool_ops.
Ltac facts R := pose proof (rel_no_path _ _ _ _ _ R) as NP; pose proof (rel_no_text _ _ _ _ _ R) as NT; pose proof (rel_page _ _ _ _ _ R) as PL; pose proof (rel_open_path _ _ _ _ _ R) as OP;
  pose proof (rel_has_path _ _ _ _ _ R) as HP; pose proof (rel_in_path _ _ _ _ _ R) as IP; pose proof (r_canvas _ _ _ _ _ R) as CV.
Ltac gfs := cbn [c_ctm c_width c_miter c_cap c_join c_intent c_fill c_stroke g_ctm g_width g_miter g_cap g_join g_intent g_fill g_stroke with_ctm with_width with_miter with_cap with_join with_intent
  with_fill with_stroke with_dash with_ext with_clip].
(** ** Calls of many steps *)
Lemma same_refl p : same_p p p.
Proof. unfold same_p. tauto. Qed.
Lemma same_trans p q r : same_p p q -> same_p q r -> same_p p r.
Proof. unfold same_p. intros (A & B & C & D & E) (A' & B' & C' & D' & E'). repeat split; congruence. Qed.
Lemma goes_done x w b p m k q p' t is m' : step p k = Ok p' -> same_p q p' -> p_tmp p' = p_tmp p ++ t -> piece is t -> execs is m = Some m' ->
  Rel x (want w k) (book_step w b k) q m' -> goes x w b p m k.
Proof. intros S A T P E R. exists p', t, is, m'. split; [exact S|]. split; [exact T|]. split; [exact P|]. split; [exact E|]. exact (rel_same x _ _ q p' m' A R). Qed.
Definition with_res (ty n : list Z) (o x : Z) (p : painter) : painter := set_world (upd (p_world p) x (add_resource ty n o (p_world p x))) p.
Lemma add_with ty n o x p : p_canvas p = Some x -> add_to_resources ty n o p = Ok (with_res ty n o x p).
Proof. unfold add_to_resources. intros ->. reflexivity. Qed.
Lemma opened_p p : same_p p (opened p).
Proof. destruct (opened_same p) as (A & B & C & D & E & F). unfold same_p. repeat split; congruence. Qed.
Lemma opened_tmp p : p_tmp (opened p) = p_tmp p.
Proof. destruct (opened_same p) as (A & B & C & D & E & F). exact B. Qed.
Lemma same_canvas p q x : same_p p q -> p_canvas p = Some x -> p_canvas q = Some x.
Proof. intros (A & _) H. congruence. Qed.
Lemma emits x ts : forall p, p_canvas p = Some x -> exists p', all_of (map emit ts) p = Ok p' /\ same_p p p' /\ p_tmp p' = p_tmp p ++ List.concat ts.
Proof.
  induction ts as [|t ts IH]; intros p C; [exists p; cbn [map all_of List.concat]; rewrite app_nil_r; split; [reflexivity|]; split; [apply same_refl|reflexivity]|].
  cbn [map all_of]. rewrite (emit_opened t p x C). cbn [bind]. destruct (IH (write_tmp t (opened p)) (same_canvas _ _ x (same_opened p t) C)) as (p' & E & S & T).
  exists p'. split; [exact E|]. split; [exact (same_trans _ _ _ (same_opened p t) S)|]. rewrite T, tmp_opened. cbn [List.concat]. rewrite app_assoc. reflexivity.
Qed.
Lemma checked_emits x ts p : p_canvas p = Some x -> exists p', all_of ((fun p => check_stream p) :: map emit ts) p = Ok p' /\ same_p p p' /\ p_tmp p' = p_tmp p ++ List.concat ts.
Proof.
  intros C. cbn [all_of]. rewrite (check_opened p x C). cbn [bind]. destruct (emits x ts (opened p) (same_canvas _ _ x (opened_p p) C)) as (p' & E & S & T).
  exists p'. split; [exact E|]. split; [exact (same_trans _ _ _ (opened_p p) S)|]. rewrite T, opened_tmp. reflexivity.
Qed.

(** ** Paths *)
Definition seg_text (s : seg Q) : list Z :=
  match s with
  | SMove x y => op_line [x; y] "m" | SLine x y => op_line [x; y] "l" | SCurve a b c d e f => op_line [a; b; c; d; e; f] "c"
  | SRect x y w h => op_line [x; y; w; h] "re" | SClose => op_line [] "h"
  end.
Definition starts (s : seg Q) : bool := match s with SMove _ _ | SRect _ _ _ _ => true | _ => false end.
Lemma set_path_same m : set_path (m_path m) m = m.
Proof. destruct m. reflexivity. Qed.
Lemma path_piece l : Forall fits (flat_map seg_numbers l) -> exists is, piece is (List.concat (map seg_text l)) /\
  forall m, open_path m = true -> (has_path m = true \/ match l with s :: _ => starts s = true | [] => True end) -> execs is m = Some (set_path (m_path m ++ mpath l) m).
Proof.
  induction l as [|s l IH]; intros F; [exists []; split; [exact piece_nil|]; intros m _ _; cbn [execs mpath map]; rewrite app_nil_r, set_path_same; reflexivity|].
  cbn [flat_map] in F. apply Forall_app in F as [F1 F2]. destruct (IH F2) as (is & P & E). clear IH.
  assert (Q0 : exists i, piece [i] (seg_text s) /\ forall m, open_path m = true -> (has_path m = true \/ starts s = true) -> exec i m = Some (add_path (match mpath [s] with a :: _ => a | [] => SClose end) m)).
  { destruct s as [a b|a b|a b c d e f|a b c d|]; cbn [seg_numbers] in F1.
    - destruct (piece_nums _ (bs "m") 10 F1 eq_refl eq_refl) as (os1 & P1 & N1).
    cbn [map] in N1. exists (IOp os1 (bs "m")). split; [exact P1|]. intros m O _. cbn [exec]. unfold exec_op. bool_ops. rewrite N1, O. reflexivity.
    - destruct (piece_nums _ (bs "l") 10 F1 eq_refl eq_refl) as (os2 & P2 & N2). cbn [map] in N2. exists (IOp os2 (bs "l")). split; [exact P2|]. intros m O [H|H]; [|discriminate]. cbn [exec]. unfold exec_op, in_path. bool_ops. rewrite N2, O, H. reflexivity.
    - destruct (piece_nums _ (bs "c") 10 F1 eq_refl eq_refl) as (os3 & P3 & N3). cbn [map] in N3. exists (IOp os3 (bs "c")). split; [exact P3|]. intros m O [H|H]; [|discriminate]. cbn [exec]. unfold exec_op, in_path. bool_ops. rewrite N3, O, H. reflexivity.
    - destruct (piece_nums _ (bs "re") 10 F1 eq_refl eq_refl) as (os4 & P4 & N4). cbn [map] in N4. exists (IOp os4 (bs "re")). split; [exact P4|]. intros m O _. cbn [exec]. unfold exec_op. bool_ops. rewrite N4, O. reflexivity.
    - exists (IOp [] (bs "h")). split; [apply piece_bare; reflexivity|]. intros m O [H|H]; [|discriminate]. cbn [exec]. unfold exec_op, in_path. bool_ops. rewrite O, H. reflexivity. }
  destruct Q0 as (i & PI & EI). exists ([i] ++ is). split; [cbn [map List.concat]; apply piece_app; assumption|]. intros m O H. cbn [app execs]. rewrite (EI m O H), E.
  - f_equal. unfold add_path. cbn [set_path m_path]. rewrite <- app_assoc. destruct m, s; reflexivity.
  - destruct m; exact O.
  - left. unfold has_path, add_path. cbn [set_path m_path]. destruct (m_path m); reflexivity.
Qed.
(** paths with the same numbers *)
Definition seg_shape (s : seg Q) : Z := match s with SMove _ _ => 0 | SLine _ _ => 1 | SCurve _ _ _ _ _ _ => 2 | SRect _ _ _ _ => 3 | SClose => 4 end.
Definition seg_same (s t : seg Q) : Prop := seg_shape s = seg_shape t /\ Forall2 Qeq (seg_numbers s) (seg_numbers t).
Lemma same_mpath l l' : Forall2 seg_same l l' -> mpath l = mpath l'.
Proof.
  induction 1 as [|s t l l' (A & B) _ IH]; [reflexivity|]. unfold mpath in *. cbn [map]. rewrite IH. f_equal.
  destruct s, t; try discriminate; cbn [seg_numbers] in B; repeat match goal with H : Forall2 Qeq (_ :: _) (_ :: _) |- _ => inversion H; subst; clear H end; f_equal; apply millionths_compat; assumption.
Qed.
Lemma same_fits l l' : Forall2 seg_same l l' -> Forall fits (flat_map seg_numbers l') -> Forall fits (flat_map seg_numbers l).
Proof.
  induction 1 as [|s t l l' (_ & B) _ IH]; intros H; [constructor|]. cbn [flat_map] in *. apply Forall_app in H as [H1 H2]. apply Forall_app. split; [|exact (IH H2)].
  clear -B H1. induction B as [|a b u v E _ IH]; [constructor|]. inversion H1; subst. constructor; [apply (fits_compat b a); [symmetry; exact E|assumption]|apply IH; assumption].
Qed.
Section Sim.
Variables (x : Z) (w : wanted) (b : book) (p : painter) (m : mstate).
Hypothesis R : Rel x w b p m.
(** ** Save and Restore *)
Lemma page_text : page_level (w_m w) = true -> no_text (w_m w) = true.
Proof. unfold page_level. intros H. apply andb_true_iff in H. tauto. Qed.
Lemma goes_save : right w b KSave -> goes x w b p m KSave.
Proof.
  facts R. intros H. cbn [right] in H. apply (goes_emit x w b p m KSave (bs "q" ++ nl) [IOp [] (bs "q")] (set_stack ((m_g m, m_t m) :: m_stack m) m)); [reflexivity|apply piece_bare; reflexivity| |exact CV|].
  - one. rewrite PL, H. reflexivity.
  - rel R. cbn [map fst]. rewrite r_g, r_stack. reflexivity. constructor; assumption.
Qed.
Lemma goes_restore : right w b KRestore -> goes x w b p m KRestore.
Proof.
  facts R. intros (H & t0 & r & E). pose proof (r_stack x w b p m R) as S. rewrite E in S. destruct (m_stack m) as [|[g' e0] r'] eqn:EM; [discriminate|]. cbn [map fst] in S. injection S as -> S.
  apply (goes_emit x w b p m KRestore (bs "Q" ++ nl) [IOp [] (bs "Q")] (set_stack r' (set_g (m_g (w_m w)) (set_t e0 m)))); [reflexivity|apply piece_bare; reflexivity| |exact CV|].
  - one. rewrite PL, H, EM. reflexivity.
  - pose proof (page_text H) as T. destruct R. rewrite EM in r_lags. inversion r_lags; subst. constructor; flds; rewrite ?E; flds; auto; try (intros; congruence).
    intros Q. change (no_text (w_m w) = false) in Q. congruence.
Qed.

(** ** Graphics state *)
Lemma nums_goes q k l n m' : step p k = emit (nums_text l ++ n ++ nl) q -> p_tmp q = p_tmp p -> p_canvas q = Some x -> Forall fits l -> existsb (beq n) op_words = true ->
  (forall os, numbers os = Some (map millionths l) -> exec_op os n m = Some m') -> Rel x (want w k) (book_step w b k) q m' -> goes x w b p m k.
Proof.
  intros S T C F I E R'. destruct (piece_nums l n 10 F I eq_refl) as (os & P & N). apply (goes_set x w b p m k q (nums_text l ++ n ++ nl) [IOp os n] m'); auto. apply execs_one. exact (E os N).
Qed.
Lemma goes_width q : right w b (KWidth q) -> goes x w b p m (KWidth q).
Proof.
  facts R. intros (H & F & Z0). pose proof (r_gc x w b p m R) as (G1 & G2 & G3 & G4 & G5 & G6 & G7 & G8). destruct (Qeq_bool (c_width (p_gc p)) q) eqn:E.
  - apply (goes_silent x w b p m (KWidth q) p); [cbn [step]; unfold set_width; rewrite E; reflexivity|reflexivity|]. apply Qeq_bool_iff in E.
    destruct (b_width b) eqn:BW; [|exfalso; apply Z0; [reflexivity|]; rewrite <- E; exact G2]. rewrite (millionths_compat _ _ E) in G2.
    assert (X : with_width (millionths q) (m_g (w_m w)) = m_g (w_m w)) by (rewrite <- G2; destruct (m_g (w_m w)); reflexivity).
    rel R; rewrite ?X; auto. unfold gcache_ok. flds. rewrite (millionths_compat _ _ E). tauto.
  - apply (nums_goes (set_gc (mk_gc (c_ctm (p_gc p)) q (c_miter (p_gc p)) (c_cap (p_gc p)) (c_join (p_gc p)) (c_intent (p_gc p)) (c_fill (p_gc p)) (c_stroke (p_gc p))) p) (KWidth q) [q] (bs "w") (set_g (with_width (millionths q) (m_g m)) m));
      [cbn [step]; unfold set_width; rewrite E; reflexivity|reflexivity|exact CV|constructor; auto|reflexivity| |].
    + intros os N. unfold exec_op. bool_ops. rewrite N. cbn [map]. rewrite NP, H. reflexivity.
    + rel R; [rewrite r_g; reflexivity|]. unfold gcache_ok. flds. gfs. tauto.
Qed.
Lemma goes_miter q : right w b (KMiter q) -> goes x w b p m (KMiter q).
Proof.
  facts R. intros (H & F). pose proof (r_gc x w b p m R) as (G1 & G2 & G3 & G4 & G5 & G6 & G7 & G8). destruct (Qeq_bool (c_miter (p_gc p)) q) eqn:E.
  - apply (goes_silent x w b p m (KMiter q) p); [cbn [step]; unfold set_miter; rewrite E; reflexivity|reflexivity|]. apply Qeq_bool_iff in E. rewrite (millionths_compat _ _ E) in G3.
    assert (X : with_miter (millionths q) (m_g (w_m w)) = m_g (w_m w)) by (rewrite <- G3; destruct (m_g (w_m w)); reflexivity).
    rel R; rewrite ?X; auto.
  - apply (nums_goes (set_gc (mk_gc (c_ctm (p_gc p)) (c_width (p_gc p)) q (c_cap (p_gc p)) (c_join (p_gc p)) (c_intent (p_gc p)) (c_fill (p_gc p)) (c_stroke (p_gc p))) p) (KMiter q) [q] (bs "M") (set_g (with_miter (millionths q) (m_g m)) m));
      [cbn [step]; unfold set_miter; rewrite E; reflexivity|reflexivity|exact CV|constructor; auto|reflexivity| |].
    + intros os N. unfold exec_op. bool_ops. rewrite N. cbn [map]. rewrite NP, H. reflexivity.
    + rel R; [rewrite r_g; reflexivity|]. unfold gcache_ok. flds. gfs. tauto.
Qed.
Lemma goes_matrix a : right w b (KMatrix a) -> goes x w b p m (KMatrix a).
Proof.
  facts R. intros (H & C0 & F & NI). pose proof (r_gc x w b p m R) as (G1 & G2 & G3 & G4 & G5 & G6 & G7 & G8).
  assert (E : qs_eqb (mat_list (c_ctm (p_gc p))) (mat_list a) = false).
  { apply not_true_is_false. intros E. apply NI. apply qs_eqb_iff. apply (qs_eqb_trans (mat_list (c_ctm (p_gc p)))); [exact (G1 C0)|exact E]. }
  apply (nums_goes (set_gc (mk_gc a (c_width (p_gc p)) (c_miter (p_gc p)) (c_cap (p_gc p)) (c_join (p_gc p)) (c_intent (p_gc p)) (c_fill (p_gc p)) (c_stroke (p_gc p))) p) (KMatrix a) (mat_list a) (bs "cm") (set_g (with_ctm [map millionths (mat_list a)] (m_g m)) m));
      [cbn [step]; unfold set_matrix; rewrite E; reflexivity|reflexivity|exact CV|exact F|reflexivity| |].
  - intros os N. unfold exec_op. bool_ops. rewrite N. pose proof (r_g x w b p m R) as RG. rewrite RG, C0. destruct a as [[[[[a1 a2] a3] a4] a5] a6]. cbn [mat_list map]. rewrite PL, H. reflexivity.
  - rel R; [rewrite r_g; reflexivity|]. unfold gcache_ok. flds. gfs. split; [discriminate|]. tauto.
Qed.
Lemma int_goes q k z n m' : step p k = emit (dec_signed z ++ 32 :: n ++ nl) q -> p_tmp q = p_tmp p -> p_canvas q = Some x -> - 2 ^ 63 <= z < 2 ^ 63 -> existsb (beq n) op_words = true ->
  exec_op [ONum z] n m = Some m' -> Rel x (want w k) (book_step w b k) q m' -> goes x w b p m k.
Proof.
  intros S T C F I E R'. apply (goes_set x w b p m k q (dec_signed z ++ 32 :: n ++ nl) [IOp [ONum z] n] m'); auto; [|apply execs_one; exact E].
  replace (dec_signed z ++ 32 :: n ++ nl) with ((dec_signed z ++ [32] ++ []) ++ n ++ [10]) by (rewrite <- !app_assoc; reflexivity).
  apply piece_word; [|exact I|reflexivity]. apply vals_cons; [|exact vals_nil]. intros k0. apply value_int; [exact F|apply stops32].
Qed.
Lemma goes_cap z : right w b (KCap z) -> goes x w b p m (KCap z).
Proof.
  facts R. intros (H & F & Z0). pose proof (r_gc x w b p m R) as (G1 & G2 & G3 & G4 & G5 & G6 & G7 & G8). destruct (c_cap (p_gc p) =? z) eqn:E.
  - apply (goes_silent x w b p m (KCap z) p); [cbn [step]; unfold set_cap; rewrite E; reflexivity|reflexivity|]. apply Z.eqb_eq in E.
    destruct (b_cap b) eqn:BW; [|exfalso; apply Z0; [reflexivity|]; rewrite <- E; exact G4]. rewrite E in G4.
    assert (X : with_cap z (m_g (w_m w)) = m_g (w_m w)) by (rewrite <- G4; destruct (m_g (w_m w)); reflexivity).
    rel R; rewrite ?X; auto. unfold gcache_ok. flds. rewrite E. tauto.
  - apply (int_goes (set_gc (mk_gc (c_ctm (p_gc p)) (c_width (p_gc p)) (c_miter (p_gc p)) z (c_join (p_gc p)) (c_intent (p_gc p)) (c_fill (p_gc p)) (c_stroke (p_gc p))) p) (KCap z) z (bs "J") (set_g (with_cap z (m_g m)) m));
      [cbn [step]; unfold set_cap; rewrite E; reflexivity|reflexivity|exact CV|lia|reflexivity| |].
    + unfold exec_op. bool_ops. rewrite NP, H. rewrite (proj2 (Z.leb_le 0 z)), (proj2 (Z.leb_le z 2)) by lia. reflexivity.
    + rel R; [rewrite r_g; reflexivity|]. unfold gcache_ok. flds. gfs. tauto.
Qed.
Lemma goes_join z : right w b (KJoin z) -> goes x w b p m (KJoin z).
Proof.
  facts R. intros (H & F). pose proof (r_gc x w b p m R) as (G1 & G2 & G3 & G4 & G5 & G6 & G7 & G8). destruct (c_join (p_gc p) =? z) eqn:E.
  - apply (goes_silent x w b p m (KJoin z) p); [cbn [step]; unfold set_join; rewrite E; reflexivity|reflexivity|]. apply Z.eqb_eq in E. rewrite E in G5.
    assert (X : with_join z (m_g (w_m w)) = m_g (w_m w)) by (rewrite <- G5; destruct (m_g (w_m w)); reflexivity).
    rel R; rewrite ?X; auto.
  - apply (int_goes (set_gc (mk_gc (c_ctm (p_gc p)) (c_width (p_gc p)) (c_miter (p_gc p)) (c_cap (p_gc p)) z (c_intent (p_gc p)) (c_fill (p_gc p)) (c_stroke (p_gc p))) p) (KJoin z) z (bs "j") (set_g (with_join z (m_g m)) m));
      [cbn [step]; unfold set_join; rewrite E; reflexivity|reflexivity|exact CV|lia|reflexivity| |].
    + unfold exec_op. bool_ops. rewrite NP, H. rewrite (proj2 (Z.leb_le 0 z)), (proj2 (Z.leb_le z 2)) by lia. reflexivity.
    + rel R; [rewrite r_g; reflexivity|]. unfold gcache_ok. flds. gfs. tauto.
Qed.
Lemma piece_named v n : plain_name v -> existsb (beq n) op_words = true -> piece [IOp [OName v] n] (bs "/" ++ v ++ 32 :: n ++ nl).
Proof.
  intros P I. replace (bs "/" ++ v ++ 32 :: n ++ nl) with ((47 :: v ++ [32]) ++ n ++ [10]) by (cbn [app]; rewrite <- app_assoc; reflexivity).
  apply piece_word; [apply vals_name; exact P|exact I|reflexivity].
Qed.
Lemma goes_intent n : right w b (KIntent n) -> goes x w b p m (KIntent n).
Proof.
  facts R. intros (H & F). pose proof (r_gc x w b p m R) as (G1 & G2 & G3 & G4 & G5 & G6 & G7 & G8). destruct (beq (c_intent (p_gc p)) n) eqn:E.
  - apply (goes_silent x w b p m (KIntent n) p); [cbn [step]; unfold set_intent; rewrite E; reflexivity|reflexivity|]. apply beq_eq in E. rewrite E in G6. specialize (G6 (proj1 F)).
    assert (X : with_intent n (m_g (w_m w)) = m_g (w_m w)) by (rewrite <- G6; destruct (m_g (w_m w)); reflexivity).
    rel R; rewrite ?X; auto.
  - apply (goes_set x w b p m (KIntent n) (set_gc (mk_gc (c_ctm (p_gc p)) (c_width (p_gc p)) (c_miter (p_gc p)) (c_cap (p_gc p)) (c_join (p_gc p)) n (c_fill (p_gc p)) (c_stroke (p_gc p))) p) (bs "/" ++ n ++ 32 :: bs "ri" ++ nl) [IOp [OName n] (bs "ri")] (set_g (with_intent n (m_g m)) m));
      [cbn [step]; unfold set_intent; rewrite E; reflexivity|reflexivity|exact CV|apply piece_named; [exact F|reflexivity]| |].
    + one. rewrite NP, H. reflexivity.
    + rel R; [rewrite r_g; reflexivity|]. unfold gcache_ok. flds. gfs. tauto.
Qed.
Lemma lab_name : plain_name (bs "ColorSpaceCieLab").
Proof.
  split; [discriminate|]. split; [|apply Nat.leb_le; reflexivity].
  assert (H : forallb (fun c => is_regular c && is_printable c && negb (c =? 35) && (0 <? c) && (c <? 256)) (bs "ColorSpaceCieLab") = true) by reflexivity.
  apply Forall_forall. intros c I. apply (proj1 (forallb_forall _ _) H) in I. apply andb_true_iff in I as [I I5]. apply andb_true_iff in I as [I I4]. apply andb_true_iff in I as [I I3]. apply andb_true_iff in I as [I1 I2].
  apply negb_true_iff, Z.eqb_neq in I3. apply Z.ltb_lt in I4, I5. auto.
Qed.
Lemma color_piece st c : Forall fits (color_numbers c) -> c <> COther -> (forall n d alt, c = CSep n d alt -> plain_name (bs "ColorSpace" ++ n)) -> no_path m = true ->
  exists t is, color_text st c = Ok t /\ piece is t /\ execs is m = Some (set_g ((if st then with_stroke else with_fill) (paint_of c) (m_g m)) m).
Proof.
  intros F N S H.
  assert (SIMPLE : forall l nm v, Forall fits l -> existsb (beq nm) op_words = true -> color_text st c = Ok (nums_text l ++ nm ++ nl) ->
    (forall os, numbers os = Some (map millionths l) -> exec_op os nm m = Some v) -> exists t is, color_text st c = Ok t /\ piece is t /\ execs is m = Some v).
  { intros l nm v F' I T E. destruct (piece_nums l nm 10 F' I eq_refl) as (os & P & NN). exists (nums_text l ++ nm ++ nl), [IOp os nm]. split; [exact T|]. split; [exact P|]. apply execs_one. exact (E os NN). }
  assert (TWO : forall v l n1 n2 m', plain_name v -> Forall fits l -> existsb (beq n1) op_words = true -> existsb (beq n2) op_words = true ->
    color_text st c = Ok ((47 :: v ++ [32]) ++ n1 ++ [32] ++ nums_text l ++ n2 ++ nl) -> (forall os, numbers os = Some (map millionths l) -> execs [IOp [OName v] n1; IOp os n2] m = Some m') ->
    exists t is, color_text st c = Ok t /\ piece is t /\ execs is m = Some m').
  { intros v l n1 n2 m' PN F' I1 I2 T E. destruct (piece_nums l n2 10 F' I2 eq_refl) as (os & P & NN). exists ((47 :: v ++ [32]) ++ n1 ++ [32] ++ nums_text l ++ n2 ++ nl), ([IOp [OName v] n1] ++ [IOp os n2]).
    split; [exact T|]. split; [|exact (E os NN)]. replace ((47 :: v ++ [32]) ++ n1 ++ [32] ++ nums_text l ++ n2 ++ nl) with (((47 :: v ++ [32]) ++ n1 ++ [32]) ++ nums_text l ++ n2 ++ nl) by (rewrite <- !app_assoc; reflexivity).
    apply piece_app; [|exact P]. apply piece_word; [apply vals_name; exact PN|exact I1|reflexivity]. }
  destruct c as [g|r g bb|c' mm y k|n d alt|l a bb|]; [| | | | |congruence].
  - apply (SIMPLE [g] (if st then bs "G" else bs "g")); [exact F|destruct st; reflexivity|destruct st; reflexivity|].
    intros os E. destruct st; unfold exec_op; bool_ops; rewrite E; cbn [map]; rewrite H; reflexivity.
  - apply (SIMPLE [r; g; bb] (if st then bs "RG" else bs "rg")); [exact F|destruct st; reflexivity|destruct st; reflexivity|].
    intros os E. destruct st; unfold exec_op; bool_ops; rewrite E; cbn [map]; rewrite H; reflexivity.
  - apply (SIMPLE [c'; mm; y; k] (if st then bs "K" else bs "k")); [exact F|destruct st; reflexivity|destruct st; reflexivity|].
    intros os E. destruct st; unfold exec_op; bool_ops; rewrite E; cbn [map]; rewrite H; reflexivity.
  - pose proof (S n d alt eq_refl) as PN. assert (EN : escape_name n = Ok n) by (apply escape_plain; destruct PN as (_ & PN & _); apply Forall_app in PN; tauto).
    apply (TWO (bs "ColorSpace" ++ n) [d] (if st then bs "CS" else bs "cs") (if st then bs "SCN" else bs "scn")); [exact PN|exact F|destruct st; reflexivity|destruct st; reflexivity| |].
    + cbn [color_text]. rewrite EN. cbn [bind]. f_equal. unfold nums_text. cbn [flat_map]. rewrite app_nil_r. cbn [app]. rewrite <- !app_assoc. destruct st; cbn [app]; rewrite <- ?app_assoc; reflexivity.
    + intros os E. assert (H2 : forall z, no_path (set_g z m) = true) by (intros z; destruct m; exact H).
      destruct st; cbn [execs exec]; unfold exec_op; bool_ops; rewrite H; cbn [when]; bool_ops; rewrite E; cbn [map]; rewrite H2; reflexivity.
  - apply (TWO (bs "ColorSpaceCieLab") [l; a; bb] (if st then bs "CS" else bs "cs") (if st then bs "SCN" else bs "scn"));
      [exact lab_name|exact F|destruct st; reflexivity|destruct st; reflexivity| |].
    + destruct st; reflexivity.
    + intros os E. assert (H2 : forall z, no_path (set_g z m) = true) by (intros z; destruct m; exact H).
      destruct st; cbn [execs exec]; unfold exec_op; bool_ops; rewrite H; cbn [when]; bool_ops; rewrite E; cbn [map]; rewrite H2; reflexivity.
Qed.
Lemma set_color_ok st c q t : p_canvas q = Some x -> color_text st c = Ok t -> exists p', set_color st c q = Ok p' /\ same_p q p' /\ p_tmp p' = p_tmp q ++ t.
Proof.
  intros C T. unfold set_color. rewrite (check_opened q x C). cbn [bind]. pose proof (same_canvas _ _ x (opened_p q) C) as C'.
  assert (X : exists q', color_resource c (opened q) = Ok q' /\ same_p (opened q) q' /\ p_tmp q' = p_tmp (opened q)).
  { unfold color_resource. destruct c; try (exists (opened q); split; [reflexivity|]; split; [apply same_refl|reflexivity]);
      rewrite (add_with _ _ _ x _ C'); (eexists; split; [reflexivity|]; split; [unfold same_p; cbn; tauto|reflexivity]). }
  destruct X as (q' & -> & S' & T'). cbn [bind]. rewrite T. cbn [bind]. exists (write_tmp t q'). split; [reflexivity|]. split.
  - apply (same_trans _ _ _ (opened_p q)). apply (same_trans _ _ _ S'). unfold same_p, write_tmp. cbn [set_tmp p_canvas p_gc p_tc p_tab p_text]. tauto.
  - unfold write_tmp. cbn [p_tmp set_tmp]. rewrite T', opened_tmp. reflexivity.
Qed.
Lemma goes_fill c : right w b (KFill c) -> goes x w b p m (KFill c).
Proof.
  facts R. intros (H & F & NO & SN). pose proof (r_gc x w b p m R) as (G1 & G2 & G3 & G4 & G5 & G6 & G7 & G8). destruct (color_eqb (c_fill (p_gc p)) c) eqn:E.
  - apply (goes_silent x w b p m (KFill c) p); [cbn [step]; unfold set_fill; rewrite E; reflexivity|reflexivity|]. apply color_eqb_paint in E. rewrite E in G7.
    assert (X : with_fill (paint_of c) (m_g (w_m w)) = m_g (w_m w)) by (rewrite <- G7; destruct (m_g (w_m w)); reflexivity).
    rel R; rewrite ?X; auto.
  - set (q := set_gc (mk_gc (c_ctm (p_gc p)) (c_width (p_gc p)) (c_miter (p_gc p)) (c_cap (p_gc p)) (c_join (p_gc p)) (c_intent (p_gc p)) c (c_stroke (p_gc p))) p).
    destruct (color_piece false c F NO SN) as (t & is & T & P & X); [rewrite NP; exact H|]. destruct (set_color_ok false c q t CV T) as (p' & S & SP & TP).
    apply (goes_done x w b p m (KFill c) q p' t is (set_g (with_fill (paint_of c) (m_g m)) m)); [cbn [step]; unfold set_fill; rewrite E; exact S|exact SP|exact TP|exact P|exact X|].
    subst q. rel R; [rewrite r_g; reflexivity|]. unfold gcache_ok. flds. gfs. tauto.
Qed.
Lemma goes_stroke c : right w b (KStroke c) -> goes x w b p m (KStroke c).
Proof.
  facts R. intros (H & F & NO & SN). pose proof (r_gc x w b p m R) as (G1 & G2 & G3 & G4 & G5 & G6 & G7 & G8). destruct (color_eqb (c_stroke (p_gc p)) c) eqn:E.
  - apply (goes_silent x w b p m (KStroke c) p); [cbn [step]; unfold set_stroke; rewrite E; reflexivity|reflexivity|]. apply color_eqb_paint in E. rewrite E in G8.
    assert (X : with_stroke (paint_of c) (m_g (w_m w)) = m_g (w_m w)) by (rewrite <- G8; destruct (m_g (w_m w)); reflexivity).
    rel R; rewrite ?X; auto.
  - set (q := set_gc (mk_gc (c_ctm (p_gc p)) (c_width (p_gc p)) (c_miter (p_gc p)) (c_cap (p_gc p)) (c_join (p_gc p)) (c_intent (p_gc p)) (c_fill (p_gc p)) c) p).
    destruct (color_piece true c F NO SN) as (t & is & T & P & X); [rewrite NP; exact H|]. destruct (set_color_ok true c q t CV T) as (p' & S & SP & TP).
    apply (goes_done x w b p m (KStroke c) q p' t is (set_g (with_stroke (paint_of c) (m_g m)) m)); [cbn [step]; unfold set_stroke; rewrite E; exact S|exact SP|exact TP|exact P|exact X|].
    subst q. rel R; [rewrite r_g; reflexivity|]. unfold gcache_ok. flds. gfs. tauto.
Qed.
Lemma goes_ext n o : right w b (KExt n o) -> goes x w b p m (KExt n o).
Proof.
  facts R. intros (H & F). pose proof (same_canvas _ _ x (opened_p p) CV) as C'.
  apply (goes_done x w b p m (KExt n o) p (write_tmp (bs "/" ++ n ++ bs " gs" ++ nl) (with_res (bs "ExtGState") n o x (opened p))) (bs "/" ++ n ++ 32 :: bs "gs" ++ nl) [IOp [OName n] (bs "gs")]
    (set_g (with_ext (g_ext (m_g m) ++ [n]) (m_g m)) m)); [| | |apply piece_named; [exact F|reflexivity]| |].
  - cbn [step]. unfold set_ext. rewrite (check_opened p x CV). cbn [bind]. rewrite (add_with _ _ _ x _ C'). reflexivity.
  - apply (same_trans _ _ _ (opened_p p)). unfold same_p, write_tmp, with_res. cbn. tauto.
  - unfold write_tmp, with_res. cbn [p_tmp set_tmp set_world]. rewrite opened_tmp. reflexivity.
  - one. rewrite NP, H. reflexivity.
  - rel R. rewrite r_g. reflexivity.
Qed.
Lemma goes_style st cu i s0 su : right w b (KStyle st cu i s0 su) -> goes x w b p m (KStyle st cu i s0 su).
Proof.
  facts R. intros (H & ->). apply (goes_done x w b p m (KStyle 0 cu i s0 su) p (write_tmp (bs "[] 0 d" ++ nl) (opened p)) (bs "[] 0 d" ++ nl) [IOp [OArr []; ONum 0] (bs "d")]
    (set_g (with_dash ([], 0) (m_g m)) m)); [|apply same_opened|apply tmp_opened| | |].
  - cbn [step]. unfold stroke_style. rewrite (check_opened p x CV). cbn [bind Z.eqb negb]. rewrite andb_false_r. reflexivity.
  - change (bs "[] 0 d" ++ nl) with ((bs "[]" ++ [32] ++ dec_signed 0 ++ [32] ++ []) ++ bs "d" ++ [10]). apply piece_word; [|reflexivity|reflexivity].
    apply vals_cons; [intros k; apply value_empty|]. apply vals_cons; [|exact vals_nil]. intros k. apply value_int; [lia|apply stops32].
  - one. cbn [numbers number]. rewrite NP, H. reflexivity.
  - assert (X : map millionths (style_dash 0 i s0 su) = []) by (unfold style_dash; cbn; rewrite andb_false_r; reflexivity).
    rel R. rewrite X, r_g. reflexivity.
Qed.
Lemma goes_path k l : path_of k = l \/ Forall2 seg_same l (path_of k) -> (exists p', step p k = Ok p' /\ same_p p p' /\ p_tmp p' = p_tmp p ++ List.concat (map seg_text l)) ->
  want w k = lift (fun m => set_path (m_path m ++ mpath (path_of k)) m) w -> book_step w b k = b ->
  open_path (w_m w) = true -> (has_path (w_m w) = true \/ match l with s :: _ => starts s = true | [] => True end) -> Forall fits (flat_map seg_numbers (path_of k)) -> goes x w b p m k.
Proof.
  facts R. intros Q0 (p' & S & A & T) W B O HS F.
  assert (Q1 : Forall2 seg_same l (path_of k)).
  { destruct Q0 as [->|Q0]; [|exact Q0]. clear. induction l as [|s l IH]; constructor; [|exact IH]. split; [reflexivity|]. induction (seg_numbers s); constructor; [reflexivity|assumption]. }
  destruct (path_piece l (same_fits _ _ Q1 F)) as (is & P & E). apply (goes_done x w b p m k p p' (List.concat (map seg_text l)) is (set_path (m_path m ++ mpath l) m)); auto.
  - apply E; [rewrite OP; exact O|rewrite HP; exact HS].
  - rewrite W, B, (same_mpath _ _ Q1). unfold open_path in O. apply andb_true_iff in O as [O1 O2]. rel R.
    + rewrite r_path. reflexivity.
Qed.
Lemma goes_one_seg k s : step p k = emit (seg_text s) p -> path_of k = [s] -> want w k = lift (fun m => set_path (m_path m ++ mpath (path_of k)) m) w -> book_step w b k = b ->
  (if starts s then open_path (w_m w) = true else in_path (w_m w) = true) -> Forall fits (flat_map seg_numbers (path_of k)) -> goes x w b p m k.
Proof.
  facts R. intros S P W B H F. apply (goes_path k [s]); auto.
  - exists (write_tmp (seg_text s) (opened p)). rewrite S, (emit_opened _ p x CV). split; [reflexivity|]. split; [apply same_opened|]. cbn [map List.concat]. rewrite app_nil_r. apply tmp_opened.
  - destruct (starts s); [exact H|]. unfold in_path in H. apply andb_true_iff in H. tauto.
  - destruct (starts s); [right; reflexivity|]. unfold in_path in H. apply andb_true_iff in H. tauto.
Qed.
Lemma goes_move a c : right w b (KMove a c) -> goes x w b p m (KMove a c).
Proof. intros (H & F). apply (goes_one_seg _ (SMove a c)); auto; reflexivity. Qed.
Lemma goes_line a c : right w b (KLine a c) -> goes x w b p m (KLine a c).
Proof. intros (H & F). apply (goes_one_seg _ (SLine a c)); auto; reflexivity. Qed.
Lemma goes_curve a c d e f g : right w b (KCurve a c d e f g) -> goes x w b p m (KCurve a c d e f g).
Proof. intros (H & F). apply (goes_one_seg _ (SCurve a c d e f g)); auto; reflexivity. Qed.
Lemma goes_close : right w b KClose -> goes x w b p m KClose.
Proof. intros (H & F). apply (goes_one_seg _ SClose); auto; reflexivity. Qed.
Ltac segs := repeat (constructor; [split; [reflexivity|cbn [seg_numbers fst snd]; repeat (constructor; [first [reflexivity|ring|field]|]); constructor]|]); constructor.
Lemma goes_circle a c r : right w b (KCircle a c r) -> goes x w b p m (KCircle a c r).
Proof.
  facts R. intros (H & F). set (k := arc_magic).
  apply (goes_path (KCircle a c r) [SMove (a + r) c; SCurve (a + r) (c + r * k) (a + r * k) (c + r) a (c + r); SCurve (a - r * k) (c + r) (a - r) (c + r * k) (a - r) c;
    SCurve (a - r) (c - r * k) (a - r * k) (c - r) a (c - r); SCurve (a + r * k) (c - r) (a + r) (c - r * k) (a + r) c; SClose]%Q); [right|match goal with |- context [map seg_text ?l] => exact (checked_emits x (map seg_text l) p CV) end|reflexivity|reflexivity|exact H|right; reflexivity|exact F].
  cbn [path_of]. unfold circle_path, curve, from. subst k. change kappa with arc_magic. generalize arc_magic. intros k. cbn [fst snd]. segs.
Qed.
Lemma goes_ellipse a c u v : right w b (KEllipse a c u v) -> goes x w b p m (KEllipse a c u v).
Proof.
  facts R. intros (H & F).
  apply (goes_path (KEllipse a c u v) (match ellipse_points a c u v with
    | [p0; p1; p2; p3; p4; p5; p6; p7; p8; p9; p10; p11; p12] => [SMove (fst p0) (snd p0); curve p1 p2 p3; curve p4 p5 p6; curve p7 p8 p9; curve p10 p11 p12] | _ => [] end));
    [right| |reflexivity|reflexivity|exact H|right; reflexivity|exact F].
  - cbn [path_of ellipse_points]. unfold ellipse_path, curve, from, kappa2. cbn [fst snd]. segs.
  - eexists. split; [cbn [step]; unfold ellipse, ellipse_points; apply (emit_opened _ p x CV)|]. split; [apply same_opened|]. rewrite tmp_opened. f_equal.
Qed.
Lemma trunc_rounded q : negb (trunc q =? 0) = rounded q.
Proof.
  unfold trunc, rounded. destruct q as [n d]. cbn [Qnum Qden]. unfold Qle_bool. cbn [Qnum Qden]. assert (D : 0 < Zpos d) by reflexivity. set (z := Zpos d) in *. clearbody z.
  destruct (Z.quot n z =? 0) eqn:E; cbn [negb]; symmetry.
  - apply Z.eqb_eq in E. apply Z.quot_small_iff in E; [|lia]. rewrite (Z.abs_eq z) in E by lia. apply orb_false_iff. split; apply Z.leb_gt; lia.
  - apply Z.eqb_neq in E. apply orb_true_iff. destruct (Z_lt_le_dec (Z.abs n) z) as [L|L]; [exfalso; apply E; apply Z.quot_small_iff; [lia|]; rewrite (Z.abs_eq z) by lia; exact L|].
    destruct (Z_lt_le_dec n 0); [right|left]; apply Z.leb_le; lia.
Qed.
Lemma goes_rect a c u v rx ry : right w b (KRect a c u v rx ry) -> goes x w b p m (KRect a c u v rx ry).
Proof.
  facts R. intros (H & F). assert (S : step p (KRect a c u v rx ry) = rectangle a c u v rx ry p) by reflexivity. unfold rectangle in S. rewrite !trunc_rounded in S.
  destruct (rounded rx || rounded ry) eqn:E.
  - set (k := round_b) in S.
    apply (goes_path (KRect a c u v rx ry) [SMove (a + rx) c; SLine (a + u - rx) c; SCurve (a + u - rx * k) c (a + u) (c + ry * k) (a + u) (c + ry); SLine (a + u) (c + v - ry);
      SCurve (a + u) (c + v - ry * k) (a + u - rx * k) (c + v) (a + u - rx) (c + v); SLine (a + rx) (c + v); SCurve (a + rx * k) (c + v) a (c + v - ry * k) a (c + v - ry); SLine a (c + ry);
      SCurve a (c + ry * k) (a + rx * k) c (a + rx) c]%Q); [right| |reflexivity|reflexivity|exact H|right; reflexivity|exact F].
    + cbn [path_of]. rewrite E. unfold round_path, curve. subst k. change (4477 # 10000) with round_b. generalize round_b. intros k. cbn [fst snd]. segs.
    + rewrite S. match goal with |- context [map seg_text ?l] => exact (checked_emits x (map seg_text l) p CV) end.
  - apply (goes_path (KRect a c u v rx ry) [SRect a c u v]); [left; cbn [path_of]; rewrite E; reflexivity| |reflexivity|reflexivity|exact H|right; reflexivity|exact F].
    rewrite S. eexists. split; [apply (emit_opened _ p x CV)|]. split; [apply same_opened|]. rewrite tmp_opened. cbn [map List.concat]. rewrite app_nil_r. reflexivity.
Qed.
Lemma in_path_parts : in_path (w_m w) = true -> no_text m && has_path m = true /\ m_clip m = None.
Proof.
  facts R. intros H. unfold in_path, open_path in H. apply andb_true_iff in H as [H1 H2]. apply andb_true_iff in H1 as [H1 _]. rewrite NT, HP, H1, H2. split; [reflexivity|]. apply (r_clip x w b p m R).
Qed.
Lemma goes_painted k n h : step p k = emit (n ++ nl) p -> existsb (beq n) op_words = true -> (forall m, exec_op [] n m = painted h m) ->
  want w k = lift (fun m => set_path [] (show (EPath h (m_path m) (m_g m)) m)) w -> book_step w b k = b -> in_path (w_m w) = true -> goes x w b p m k.
Proof.
  facts R. intros S I E W B H. destruct (in_path_parts H) as [H1 H2].
  apply (goes_emit x w b p m k (n ++ nl) [IOp [] n] (end_path (show (EPath h (m_path m) (m_g m)) m))); [exact S|apply piece_bare; [exact I|reflexivity]| |exact CV|].
  - apply execs_one. cbn [exec]. rewrite E. unfold painted. rewrite H1. reflexivity.
  - rewrite W, B. unfold end_path. cbn [m_clip show]. rewrite H2. rel R; auto. rewrite r_events, r_path, r_g. reflexivity.
Qed.
Lemma goes_paint : right w b KPaint -> goes x w b p m KPaint.
Proof. intros H. apply (goes_painted KPaint (bs "S") Stroked); auto; reflexivity. Qed.
Lemma goes_pfill eo : right w b (KPaintFill eo) -> goes x w b p m (KPaintFill eo).
Proof. intros H. apply (goes_painted (KPaintFill eo) (if eo then bs "f*" else bs "f") (Filled eo)); auto; destruct eo; reflexivity. Qed.
Lemma goes_pboth eo : right w b (KPaintBoth eo) -> goes x w b p m (KPaintBoth eo).
Proof. intros H. apply (goes_painted (KPaintBoth eo) (if eo then bs "B*" else bs "B") (Both eo)); auto; destruct eo; reflexivity. Qed.
Lemma goes_endpath : right w b KEndPath -> goes x w b p m KEndPath.
Proof.
  facts R. intros H. destruct (in_path_parts H) as [H1 H2].
  apply (goes_emit x w b p m KEndPath (bs "n" ++ nl) [IOp [] (bs "n")] (end_path m)); [reflexivity|apply piece_bare; reflexivity| |exact CV|].
  - one. rewrite H1. reflexivity.
  - unfold end_path. rewrite H2. rel R; auto.
Qed.
Lemma goes_clip eo : right w b (KClip eo) -> goes x w b p m (KClip eo).
Proof.
  facts R. intros H. destruct (in_path_parts H) as [H1 H2]. set (n := if eo then bs "W*" else bs "W").
  apply (goes_emit x w b p m (KClip eo) ((n ++ [32]) ++ bs "n" ++ nl) ([IOp [] n] ++ [IOp [] (bs "n")]) (end_path (set_clip (Some eo) m))); [destruct eo; reflexivity| | |exact CV|].
  - apply piece_app; apply piece_bare; try reflexivity. destruct eo; reflexivity.
  - cbn [app execs exec]. assert (E : exec_op [] n m = Some (set_clip (Some eo) m)) by (subst n; destruct eo; unfold exec_op; bool_ops; rewrite IP, H; reflexivity).
    rewrite E. unfold exec_op. bool_ops. replace (no_text (set_clip (Some eo) m) && has_path (set_clip (Some eo) m)) with true by (destruct m; symmetry; exact H1). reflexivity.
  - unfold end_path. cbn [m_clip set_clip]. rel R; auto; rewrite ?r_g, ?r_path; reflexivity.
Qed.
Lemma goes_drawline a c d e : right w b (KDrawLine a c d e) -> goes x w b p m (KDrawLine a c d e).
Proof.
  facts R. intros (H & F). assert (F1 : Forall fits [a; c]) by (inversion F as [|? ? X1 F']; inversion F' as [|? ? X2 F'']; auto). assert (F2 : Forall fits [d; e]) by (inversion F as [|? ? X1 F']; inversion F' as [|? ? X2 F'']; auto).
  destruct (piece_nums _ (bs "m") 32 F1 eq_refl eq_refl) as (o1 & P1 & N1). destruct (piece_nums _ (bs "l") 32 F2 eq_refl eq_refl) as (o2 & P2 & N2). cbn [map] in N1, N2.
  pose proof (r_clip x w b p m R) as RC.
  assert (NPA : m_path m = [] /\ no_text m = true).
  { rewrite <- PL in H. unfold page_level, no_path in H. apply andb_true_iff in H as [H1 H2]. rewrite RC in H1. destruct (m_path m); [auto|discriminate]. } destruct NPA as [NPA NTE].
  apply (goes_emit x w b p m (KDrawLine a c d e) ((nums_text [a; c] ++ bs "m" ++ [32]) ++ (nums_text [d; e] ++ bs "l" ++ [32]) ++ bs "S" ++ nl) ([IOp o1 (bs "m")] ++ [IOp o2 (bs "l")] ++ [IOp [] (bs "S")])
    (show (EPath Stroked (mpath [SMove a c; SLine d e]) (m_g m)) m)); [| | |exact CV|].
  - cbn [step]. unfold op_line. rewrite <- !app_assoc. reflexivity.
  - apply piece_app; [exact P1|]. apply piece_app; [exact P2|]. apply piece_bare; reflexivity.
  - cbn [app execs exec]. unfold exec_op at 1. bool_ops. rewrite N1. unfold open_path. rewrite NTE, RC. cbn [andb when]. unfold exec_op at 1. bool_ops. rewrite N2.
    unfold in_path, open_path, has_path, add_path. cbn [set_path m_clip m_path no_text m_text]. unfold no_text in NTE. destruct (m_text m) eqn:MT; [discriminate|]. rewrite RC, NPA. cbn [app andb when].
    unfold exec_op. bool_ops. unfold painted, end_path, no_text, has_path. cbn. destruct m; cbn in *. subst. reflexivity.
  - rel R; auto. rewrite r_events, r_g. reflexivity.
Qed.
Lemma goes_cliprect a c d e : right w b (KClipRect a c d e) -> goes x w b p m (KClipRect a c d e).
Proof.
  facts R. intros (H & F). destruct (piece_nums _ (bs "re") 32 F eq_refl eq_refl) as (o1 & P1 & N1). cbn [map] in N1.
  pose proof (r_clip x w b p m R) as RC.
  assert (NPA : m_path m = [] /\ no_text m = true).
  { rewrite <- PL in H. unfold page_level, no_path in H. apply andb_true_iff in H as [H1 H2]. rewrite RC in H1. destruct (m_path m); [auto|discriminate]. } destruct NPA as [NPA NTE].
  apply (goes_emit x w b p m (KClipRect a c d e) ((nums_text [a; c; d; e] ++ bs "re" ++ [32]) ++ (bs "W" ++ [32]) ++ bs "n" ++ nl) ([IOp o1 (bs "re")] ++ [IOp [] (bs "W")] ++ [IOp [] (bs "n")])
    (set_g (clip_to (mpath [SRect a c d e]) false (m_g m)) m)); [| | |exact CV|].
  - cbn [step]. unfold clip_rect, op_line. rewrite <- !app_assoc. reflexivity.
  - apply piece_app; [exact P1|]. apply piece_app; apply piece_bare; reflexivity.
  - cbn [app execs exec]. unfold exec_op at 1. bool_ops. rewrite N1. unfold open_path. rewrite NTE, RC. cbn [andb when]. unfold exec_op at 1. bool_ops.
    unfold in_path, open_path, has_path, add_path. cbn [set_path m_clip m_path no_text m_text]. unfold no_text in NTE. destruct (m_text m) eqn:MT; [discriminate|]. rewrite RC, NPA. cbn [app andb when].
    unfold exec_op. bool_ops. unfold end_path, no_text, has_path. cbn. destruct m; cbn in *. subst. reflexivity.
  - rel R; auto. rewrite r_g. reflexivity.
Qed.
End Sim.
