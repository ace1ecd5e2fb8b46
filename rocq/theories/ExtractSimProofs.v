(** Extraction of text: contents make the events of what they show. *)
From Coq Require Import String QArith Qabs Lqa Setoid.
From Verif Require Import Base ChainProofs TokModel RectModel OpTables ContentsModel ExtractModel ExtractSpec ExtractProofs.
Local Open Scope Z_scope.

(** ** Matrices *)
Definition meq (m n : matrix) : Prop := (ma m == ma n /\ mb m == mb n /\ mc m == mc n /\ md m == md n /\ me m == me n /\ mf m == mf n)%Q.
Definition upright (m : matrix) : Prop := (mb m == 0 /\ mc m == 0)%Q.
Lemma meq_refl m : meq m m. Proof. repeat split; reflexivity. Qed.
Lemma meq_sym m n : meq m n -> meq n m. Proof. intros (A & B & C & D & E & F). repeat split; symmetry; assumption. Qed.
Lemma meq_trans m n o : meq m n -> meq n o -> meq m o.
Proof. intros (A & B & C & D & E & F) (A' & B' & C' & D' & E' & F'). repeat split; etransitivity; eassumption. Qed.
Ltac meqs := unfold meq, upright in *; cbn [mult product shift translate apply_tx apply_ty identity ma mb mc md me mf fst snd] in *;
  repeat match goal with [ H : _ /\ _ |- _ ] => destruct H end.
Lemma meq_mult m m' n n' : meq m m' -> meq n n' -> meq (mult m n) (product m' n').
Proof.
  intros (A & B & C & D & E & F) (A' & B' & C' & D' & E' & F'). unfold meq. cbn [mult product ma mb mc md me mf].
  rewrite A, B, C, D, E, F, A', B', C', D', E', F'. repeat split; reflexivity.
Qed.
Lemma meq_product m m' n n' : meq m m' -> meq n n' -> meq (product m n) (product m' n').
Proof. intros A B. apply (meq_mult m m' n n' A B). Qed.
Lemma meq_translate l l' x y : meq l l' -> meq (translate l (x, y)) (product (shift x y) l').
Proof.
  intros (A & B & C & D & E & F). unfold meq. cbn [translate product shift ma mb mc md me mf fst snd]. rewrite A, B, C, D, E, F. repeat split; ring.
Qed.
Lemma meq_tx m m' v v' : meq m m' -> (v == v')%Q -> upright m' -> meq (apply_tx m v) (product (shift v' 0) m').
Proof.
  intros (A & B & C & D & E & F) V (U1 & U2). unfold meq. cbn [apply_tx product shift ma mb mc md me mf]. rewrite A, B, C, D, E, F, V, U1, U2. repeat split; ring.
Qed.
Lemma meq_ty m m' v v' : meq m m' -> (v == v')%Q -> upright m' -> meq (apply_ty m v) (product (shift 0 v') m').
Proof.
  intros (A & B & C & D & E & F) V (U1 & U2). unfold meq. cbn [apply_ty product shift ma mb mc md me mf]. rewrite A, B, C, D, E, F, V, U1, U2. repeat split; ring.
Qed.
Lemma upright_shift x y m : upright m -> upright (product (shift x y) m).
Proof. intros (U1 & U2). unfold upright. cbn [product shift ma mb mc md me mf]. rewrite U1, U2. split; ring. Qed.

(** ** The relation between states *)
Section Sim.
Variable e : env.
Variable spaces : font -> list Z -> list bool.
(** Whether places are kept, and the widths of spaces *)
Variable G EVP : Prop.
Hypothesis HG : EVP -> G.
Hypothesis EL : EVP -> forall x y, (y == 0)%Q -> (e_len e x y == Qabs x)%Q.
Definition text_rel (s : tstate) (t : option (matrix * matrix)) : Prop :=
  match t with
  | None => meq (tm s) identity /\ meq (tlm s) identity
  | Some (m, l) => meq (tm s) m /\ meq (tlm s) l /\ upright m /\ upright l
  end.
Definition geo (s : tstate) (g : gstate) (t : option (matrix * matrix)) : Prop :=
  (g_font g <> None -> tsize s = g_size g) /\ tchar s = g_char g /\ tlead s = g_lead g /\ (g_word g == 0)%Q /\ (g_scale g == 1)%Q /\ (g_rise g == 0)%Q /\
  meq (ctm s) (g_ctm g) /\ meq (trm s) (mult (tm s) (ctm s)) /\ text_rel s t.
Definition evn (s : tstate) (g : gstate) : Prop :=
  (wlen s == Qabs (wraw s * ma (tm s)))%Q /\ (g_char g == 0)%Q /\ (ma (g_ctm g) == 1 /\ mb (g_ctm g) == 0 /\ mc (g_ctm g) == 0)%Q /\
  (forall f, g_font g = Some f -> ~ (f_space f * g_size g == 0)%Q -> (wraw s == f_space f * g_size g)%Q).
Definition st_ok (s : tstate) (g : gstate) (t : option (matrix * matrix)) : Prop := tfont s = g_font g /\ (G -> geo s g t) /\ (EVP -> evn s g).
Lemma space_len s : EVP -> (mb (tm s) == 0)%Q -> (wlen (set_space e s) == Qabs (wraw s * ma (tm s)))%Q.
Proof.
  intros h B. unfold set_space, vlen, image, linear. cbn [wlen fst snd ma mb mc md me mf]. rewrite (EL h) by (rewrite B; ring).
  assert (X : (ma (tm s) * wraw s + mc (tm s) * 0 + 0 == wraw s * ma (tm s))%Q) by ring. rewrite X. reflexivity.
Qed.
Lemma upright_meq m n : meq m n -> upright n -> (mb m == 0)%Q.
Proof. intros (_ & B & _) (U & _). rewrite B. exact U. Qed.
Definition rel (st : list tstate) (p : pstate) (base : list tstate) : Prop :=
  exists cur saved, st = cur :: saved ++ base /\ st_ok cur (p_gs p) (p_text p) /\ Forall2 (fun s g => st_ok s g None) saved (p_saved p).

(** ** Strings *)
Fixpoint offs (n : Z) (l : list (list Z)) : list Z := match l with [] => [] | t :: l => n :: offs (n + Z.of_nat (length t)) l end.
Lemma offsets_offs l : forall n, offsets n l = offs n (map fst l).
Proof. induction l as [|[t w] l IH]; intro n; cbn [offsets offs map fst]; [reflexivity|]. rewrite IH. reflexivity. Qed.
(** A string as it is made of codes *)
Definition made (s : sstr) (codes : list (list Z)) : Prop :=
  ss_text s = concat codes /\ ss_pos s = offs 0 codes /\ length (ss_raw s) = length codes /\ length (ss_len s) = length codes /\ ss_text s <> [].
Definition ss_end (s : sstr) : Q * Q := origin (trm (set_trm (set_tm (ss_state s) (apply_tx (tm (ss_state s)) (qsum (ss_raw s)))))).
Definition str_ok (s : sstr) (w : shown) : Prop := made s (sh_codes w) /\
  (G -> (fst (ss_at s) == sh_x w /\ snd (ss_at s) == sh_y w)%Q /\ (fst (ss_end s) == sh_ex w /\ snd (ss_end s) == sh_ey w)%Q) /\
  (EVP -> 0 < sh_wide w -> wlen (ss_state s) == sh_wide w)%Q.
Definition events_ok (evs : list event) (w : list shown) : Prop := Forall2 str_ok (strings_of evs) (filter has_text w).
Lemma events_app e1 e2 w1 w2 : events_ok e1 w1 -> events_ok e2 w2 -> events_ok (e1 ++ e2) (w1 ++ w2).
Proof. unfold events_ok, strings_of. rewrite map_app, concat_app, filter_app. apply Forall2_app. Qed.
(** The last string is in a chunk *)
Definition closed (evs : list event) : Prop := evs = [] \/ exists l v, evs = l ++ [v] /\ (v = EEnd \/ exists s, v = EStr s true).
Lemma closed_app l1 l2 : closed l1 -> closed l2 -> closed (l1 ++ l2).
Proof.
  intros A [->|(l & v & -> & B)]; [rewrite app_nil_r; exact A|]. right. exists (l1 ++ l), v. rewrite app_assoc. split; [reflexivity|exact B].
Qed.
Lemma closed_end l : closed (l ++ [EEnd]).
Proof. right. exists l, EEnd. auto. Qed.
Lemma displaced_sum g codes sp : (g_word g == 0)%Q -> (g_scale g == 1)%Q -> forall s, tsize s = g_size g -> tchar s = g_char g ->
  (displaced g codes sp == qsum (map (fun c => glyph_length (snd c) s) codes))%Q.
Proof.
  intros W SC s SZ CH. revert sp. induction codes as [|[t w] codes IH]; intro sp; cbn [displaced qsum map fold_right snd]; [reflexivity|].
  rewrite IH. unfold glyph_length at 2. rewrite SZ, CH, SC. unfold qsum. destruct sp as [|[] sp]; rewrite ?W; ring.
Qed.
Lemma bind_eta {A} (r : res A) : (do x <- r; Ok x) = r. Proof. destruct r; reflexivity. Qed.
Lemma recast_current x : x_states x <> [] -> recast x (current x :: tl (x_states x)) (x_forms x) (x_page x) = x.
Proof. destruct x as [? ? ? st ? ? ? ?]. unfold recast, current. cbn [x_states]. destruct st; [congruence|reflexivity]. Qed.
Lemma some_pair {A B} (a c : A) (b d : B) : Some (a, b) = Some (c, d) -> a = c /\ b = d.
Proof. intro E. split; congruence. Qed.
Lemma show_sim cur h str b g m l w m' : g_font g <> None -> st_ok cur g (Some (m, l)) -> show_string spaces g m str = Some (m', w) -> (G -> textual w) ->
  exists evs s', (events_ok evs [w] /\ (b = true -> closed evs)) /\ st_ok s' g (Some (m', l)) /\
    forall a x, x_states x <> [] -> current x = cur ->
      show e a x h str b = do y <- play e a x evs; Ok (recast y (s' :: tl (x_states x)) (x_forms x) (x_page x)).
Proof.
  intros NF (F & GE & EV) SH TX. unfold show_string in SH. destruct (g_font g) as [f|] eqn:GF; [|discriminate]. cbv zeta in SH. apply some_pair in SH as (SM & SW). subst m' w.
  destruct (concat (map fst (f_scan f str))) as [|c t] eqn:T.
  - exists [], cur. split; [split; [unfold events_ok, filter, has_text, sh_text; cbn [sh_codes]; rewrite T; constructor|left; reflexivity]|]. split.
    + split; [congruence|]. split; [|exact EV]. intro g0. specialize (GE g0). specialize (TX g0). destruct TX as [TX|TX]; cbn [sh_codes sh_text] in TX; [|exfalso; apply TX, T].
      apply map_eq_nil in TX. rewrite TX. cbn [displaced]. destruct GE as (A & B & C & D & E & HR & I & J & K). rewrite GF in A. unfold geo. rewrite GF.
      repeat (split; [assumption|]). cbn [text_rel] in *. destruct K as (K1 & K2 & K3 & K4). split; [|split; [exact K2|split; [|exact K4]]].
      * eapply meq_trans; [exact K1|]. unfold meq. cbn [product shift ma mb mc md me mf]. repeat split; ring.
      * apply upright_shift, K3.
    + intros a x NE CU. unfold show, decode. rewrite CU, F. unfold scan. rewrite T. cbn [play bind]. rewrite <- CU, recast_current by exact NE. reflexivity.
  - set (s := new_ss e (c :: t) cur (map (fun g => glyph_length (snd g) cur) (f_scan f str)) (offsets 0 (f_scan f str))).
    exists [EStr s b], (set_trm (set_tm cur (apply_tx (tm cur) (qsum (ss_raw s))))).
    assert (MV : G -> meq (tm (set_tm cur (apply_tx (tm cur) (qsum (ss_raw s))))) (product (shift (displaced g (f_scan f str) (spaces f str)) 0) m)).
    { intro g0. destruct (GE g0) as (A & B & C & D & E & HR & I & J & K). cbn [text_rel] in K. destruct K as (K1 & K2 & K3 & K4). rewrite GF in A. cbn [set_tm tm].
      apply meq_tx; [exact K1| |exact K3]. subst s. cbn [new_ss ss_raw]. rewrite (displaced_sum g _ _ D E cur) by (auto; apply A; discriminate). reflexivity. }
    split; [|split].
    + split; [|intros ->; right; exists [], (EStr s true); split; [reflexivity|]; right; exists s; reflexivity].
      unfold events_ok, strings_of. cbn [map concat app filter has_text]. unfold has_text, sh_text. cbn [sh_codes]. rewrite T.
      constructor; [|constructor]. unfold str_ok. split; [|split].
      * unfold made. subst s. cbn [new_ss ss_text ss_pos ss_raw ss_len sh_codes]. rewrite T, offsets_offs, !map_length. repeat (split; [reflexivity|]). discriminate.
      * intro g0. specialize (MV g0). specialize (GE g0). destruct GE as (A & B & C & D & E & HR & I & J & K). cbn [text_rel] in K. destruct K as (K1 & K2 & K3 & K4).
        assert (Q1 : meq (trm cur) (product m (g_ctm g))) by (eapply meq_trans; [exact J|]; apply meq_mult; assumption).
        pose proof (meq_mult _ _ _ _ MV I) as Q2. unfold ss_at, ss_end. subst s. unfold new_ss. cbn [ss_state ss_raw origin fst snd sh_x sh_y sh_ex sh_ey].
        cbn [set_trm set_tm trm tm ctm] in *. destruct Q1 as (_ & _ & _ & _ & Q11 & Q12). destruct Q2 as (_ & _ & _ & _ & Q21 & Q22).
        split; split; [rewrite Q11|rewrite Q12|rewrite Q21|rewrite Q22]; cbn [product shift ma mb mc md me mf]; rewrite ?HR; ring.
      * intros h0 P. destruct (EV h0) as (V1 & V2 & (V3 & V4 & V5) & V6). specialize (GE (HG h0)). destruct GE as (A & B & C & D & E & HR & I & J & K). cbn [text_rel] in K.
        destruct K as (K1 & K2 & K3 & K4). subst s. cbn [new_ss ss_state sh_wide] in *.
        assert (X : (f_space f * g_size g * g_scale g * ma (product m (g_ctm g)) == f_space f * g_size g * ma (tm cur))%Q).
        { destruct K1 as (K11 & _). cbn [product ma]. rewrite K11, E, V3, V5. ring. }
        assert (NZ : ~ (f_space f * g_size g == 0)%Q).
        { intro Z. rewrite X, Z in P. assert (Z0 : (0 * ma (tm cur) == 0)%Q) by ring. rewrite Z0 in P. apply (Qlt_irrefl 0 P). }
        rewrite X, V1, (V6 f GF NZ). reflexivity.
    + unfold st_ok. cbn [set_trm set_tm tfont]. split; [congruence|]. split.
      * intro g0. specialize (MV g0). specialize (GE g0). destruct GE as (A & B & C & D & E & HR & I & J & K). cbn [text_rel] in K.
        destruct K as (K1 & K2 & K3 & K4). unfold geo, set_trm, set_tm in *. cbn [tsize tchar tlead ctm trm tm tlm] in *. rewrite GF in *.
        repeat (split; [assumption || (intro; apply A; assumption)|]). split; [apply meq_refl|]. cbn [text_rel tm tlm]. split; [exact MV|split; [exact K2|split; [apply upright_shift, K3|exact K4]]].
      * exact EV.
    + intros a x NE CU. unfold show, decode. rewrite CU, F. unfold scan. rewrite T. rewrite push_feed by exact CU. cbn [play]. rewrite bind_eta, CU. reflexivity.
Qed.
(** ** Operands *)
Lemma number_real o q : number o q -> real_of o = Ok q.
Proof. intros []; reflexivity. Qed.
Lemma numbers_matrix l m : numbers l m -> matrix_at (rev l) = Ok m.
Proof.
  intros [oa ob oc od oe og a b c d e0 f A B C D E F]. unfold matrix_at, real_at, stack_at. cbn [rev app nth_error].
  rewrite (number_real _ _ A), (number_real _ _ B), (number_real _ _ C), (number_real _ _ D), (number_real _ _ E), (number_real _ _ F) || (cbn [bind]; rewrite ?(number_real _ _ A), ?(number_real _ _ B), ?(number_real _ _ C), ?(number_real _ _ D), ?(number_real _ _ E), ?(number_real _ _ F)).
  cbn [bind]. reflexivity.
Qed.
(** ** The states that operators make *)
Lemma advance_sim s g m l q : g_font g <> None -> st_ok s g (Some (m, l)) -> st_ok (advance e (- q / 1000 * tsize s)%Q s) g
  (Some (product (shift (- q / 1000 * g_size g * g_scale g) 0) m, l)).
Proof.
  intros NF (F & GE & EV). split; [exact F|]. split.
  - intro g0. destruct (GE g0) as (A & B & C & D & E & HR & I & J & K). cbn [text_rel] in K. destruct K as (K1 & K2 & K3 & K4).
    unfold geo, advance, dependent, set_trm, set_space, set_tm. cbn [tsize tchar tlead ctm trm tm tlm].
    repeat (split; [assumption|]). split; [apply meq_refl|]. cbn [text_rel tm tlm]. split; [|split; [exact K2|split; [apply upright_shift, K3|exact K4]]].
    apply meq_tx; [exact K1| |exact K3]. rewrite (A NF), E. ring.
  - intro h. destruct (EV h) as (V1 & V2 & V3 & V4). destruct (GE (HG h)) as (_ & _ & _ & _ & _ & _ & _ & _ & K). cbn [text_rel] in K. destruct K as (K1 & _ & K3 & _).
    split; [|split; [exact V2|split; [exact V3|exact V4]]].
    change (wlen (advance e (- q / 1000 * tsize s)%Q s)) with (wlen (set_space e (set_tm s (apply_tx (tm s) (- q / 1000 * tsize s)%Q)))). rewrite space_len; [reflexivity|exact h|].
    cbn [set_tm tm apply_tx mb]. apply (upright_meq _ _ K1 K3).
Qed.
Lemma set_current_recast x s : set_current x s = recast x (s :: tl (x_states x)) (x_forms x) (x_page x).
Proof. reflexivity. Qed.
Lemma current_recast x s t f p : current (recast x (s :: t) f p) = s.
Proof. reflexivity. Qed.
Lemma array_sim l p : Forall2 piece_is l p -> forall cur g m t m' w, g_font g <> None -> st_ok cur g (Some (m, t)) ->
  show_pieces spaces g m p = Some (m', w) -> (G -> Forall textual w) ->
  exists evs s', events_ok evs w /\ st_ok s' g (Some (m', t)) /\
    forall a x, x_states x <> [] -> current x = cur ->
      show_array e a x l = do y <- play e a x evs; Ok (recast y (s' :: tl (x_states x)) (x_forms x) (x_page x)).
Proof.
  induction 1 as [|o q l p PI F IH]; intros cur g m t m' w NF ST SH TX.
  - cbn [show_pieces] in SH. injection SH as <- <-. exists [], cur. split; [constructor|]. split; [exact ST|]. intros a x NE CU. cbn [show_array play bind].
    rewrite <- CU, recast_current by exact NE. reflexivity.
  - destruct PI as [h s|o q NU]; cbn [show_pieces] in SH.
    + destruct (show_string spaces g m s) as [[m1 w1]|] eqn:SS; [|discriminate]. destruct (show_pieces spaces g m1 p) as [[m2 w2]|] eqn:SP; [|discriminate].
      injection SH as <- <-. destruct (show_sim cur h s false g m t w1 m1 NF ST SS) as (e1 & s1 & E1 & S1 & P1).
      { intro g0. specialize (TX g0). inversion TX; assumption. }
      destruct (IH s1 g m1 t m2 w2 NF S1 SP) as (e2 & s2 & E2 & S2 & P2).
      { intro g0. specialize (TX g0). inversion TX; assumption. }
      exists (e1 ++ e2), s2. split; [apply (events_app e1 e2 [w1] w2 (proj1 E1) E2)|]. split; [exact S2|]. intros a x NE CU. cbn [show_array]. rewrite (P1 a x NE CU), play_app.
      destruct (play e a x e1) as [y| | |] eqn:PL; cbn [bind]; try reflexivity.
      rewrite (P2 a) by (discriminate || reflexivity). rewrite play_recast. reflexivity.
    + destruct (g_font g) as [f|] eqn:GF; [|discriminate]. assert (NF' : g_font g <> None) by congruence.
      destruct (IH _ g _ t m' w NF' (advance_sim cur g m t q NF' ST) SH TX) as (e2 & s2 & E2 & S2 & P2).
      exists e2, s2. split; [exact E2|]. split; [exact S2|]. intros a x NE CU.
      transitivity (show_array e a (set_current x (advance e (- q / 1000 * tsize (current x))%Q (current x))) l).
      { destruct NU; cbn [show_array real_of]; reflexivity. }
      rewrite set_current_recast, CU. rewrite (P2 a) by (discriminate || reflexivity). rewrite play_recast. reflexivity.
Qed.
(** ** The table of operators *)
Lemma lookup_in t n k : lookup_op t n = Some k -> List.In (n, k) t.
Proof.
  induction t as [|[a b] t IH]; cbn [lookup_op]; [discriminate|]. destruct (beq n a) eqn:B; [|intro H; right; apply IH, H].
  intro H. injection H as <-. apply beq_eq in B. subst a. left. reflexivity.
Qed.
Definition handled : list Z := [36; 11; 40; 41; 42; 43; 31; 32; 37; 44; 46; 47; 45; 33; 34; 9; 10].
Lemma unhandled a x k st : ~ List.In k handled -> on_operator e a x k st = Ok x.
Proof.
  intro N. unfold on_operator. destruct k as [|p|p]; try reflexivity.
  repeat (destruct p as [p|p|]; try reflexivity); exfalso; apply N; unfold handled; cbn [List.In]; tauto.
Qed.
Definition known : list (list Z) := [bs "TL"; bs "cm"; bs "Td"; bs "TD"; bs "Tm"; bs "T*"; bs "BT"; bs "ET"; bs "Tf"; bs "Tj"; bs "'"; [34]; bs "TJ"; bs "Tc";
    bs "Tw"; bs "Tz"; bs "Ts"; bs "q"; bs "Q"; bs "Do"; bs "gs"].
Lemma table_known : forallb (fun r => existsb (beq (fst r)) known || negb (existsb (Z.eqb (snd r)) handled)) op_table = true.
Proof. vm_compute. reflexivity. Qed.
Lemma other_unhandled n k : op_of_name n = Some k -> ~ List.In n known -> ~ List.In k handled.
Proof.
  intros H N J. apply lookup_in in H. pose proof (proj1 (forallb_forall _ _) table_known _ H) as B. cbn [fst snd] in B. apply orb_true_iff in B as [B|B].
  - apply existsb_exists in B as (y & Y & E). apply beq_eq in E. subst y. exact (N Y).
  - apply negb_true_iff in B. assert (X : existsb (Z.eqb k) handled = true) by (apply existsb_exists; exists k; split; [exact J|apply Z.eqb_refl]). congruence.
Qed.
(** ** One operator *)
Definition steps (c : content) (st : list tstate) (fs : list (Z * nat)) (pg : Z) (evs : list event) (st' : list tstate) : Prop :=
  forall a x, x_states x = st -> x_forms x = fs -> x_page x = pg -> on_content e a x c = do y <- play e a x evs; Ok (recast y st' fs pg).
Definition cv_of (fs : list (Z * nat)) (pg : Z) : Z := match fs with (c, _) :: _ => c | [] => pg end.
Lemma real_ok l i o q : nth_error (rev l) i = Some o -> number o q -> real_at (rev l) i = Ok q.
Proof. intros N U. unfold real_at, stack_at. rewrite N. cbn [bind]. apply number_real, U. Qed.
Lemma op_code c n k : op_of_name n = Some (ct_op c) -> op_of_name n = Some k -> ct_op c = k.
Proof. congruence. Qed.
Ltac code E := match type of E with op_of_name ?n = Some (ct_op ?c) =>
  let v := eval vm_compute in (op_of_name n) in match v with Some ?k => let CK := fresh "CK" in assert (CK : ct_op c = k) by (apply (op_code c n k E); vm_compute; reflexivity); rewrite CK end end.
Ltac opens SK := let F := fresh "F" in destruct SK as (F & GE & EV); split;
  [try exact F|split; [
  let g0 := fresh "g0" in intro g0; specialize (GE g0); destruct GE as (A & B & C & D & E & HR & I & J & K); cbn [text_rel] in K;
  unfold geo, advance, dependent, tm_operator, td_operator, tstar_operator, cm_operator, end_text, set_trm, set_space, set_tm, set_lines, set_tl, set_spacing, set_ctm, set_font;
  cbn [trm ctm tm tlm tlead tfont tsize tchar tword wraw wlen g_ctm g_font g_size g_char g_word g_scale g_rise g_lead text_rel]
  |try exact EV]].
(** The space is measured anew *)
Lemma evn_lines s g g' m q : EVP -> evn s g -> (mb m == 0)%Q -> g_char g' = g_char g -> g_ctm g' = g_ctm g -> g_font g' = g_font g -> g_size g' = g_size g ->
  evn (set_tl (dependent e (set_lines s m)) q) g' /\ evn (dependent e (set_lines s m)) g'.
Proof.
  intros h (V1 & V2 & V3 & V4) U E1 E2 E3 E4. unfold evn. rewrite E1, E2, E3, E4.
  assert (W : (wlen (dependent e (set_lines s m)) == Qabs (wraw s * ma m))%Q).
  { change (wlen (dependent e (set_lines s m))) with (wlen (set_space e (set_lines s m))). rewrite space_len; [reflexivity|exact h|exact U]. }
  split; (split; [exact W|split; [exact V2|split; [exact V3|exact V4]]]).
Qed.
Ltac run ON OP CU X1 := rewrite ON; code OP; cbn [on_operator]; rewrite ?(CU _ X1).
Lemma op_sim c o st fs pg p base p' w : spells c o -> rel st p base -> (G -> plain_oper o) -> (EVP -> even_oper o) -> perform (fonts e) spaces (cv_of fs pg) p o = Some (p', w) -> (G -> Forall textual w) ->
  exists evs st', (events_ok evs w /\ closed evs) /\ rel st' p' base /\ steps c st fs pg evs st'.
Proof.
  intros (CT & CW & l & n & SP & STK & OP) (cur & saved & ST & SK & SV) PL PE PF TX.
  assert (ON : forall a x, on_content e a x c = on_operator e a x (ct_op c) (rev l)).
  { intros a x. unfold on_content. rewrite CT, CW, STK. reflexivity. }
  destruct p as [g sv tx]. cbn [p_gs p_saved p_text] in *.
  assert (Q : forall s' g' t', (forall a x, x_states x = st -> x_forms x = fs -> x_page x = pg -> on_content e a x c = Ok (set_current x s')) ->
    st_ok s' g' t' -> exists evs st', (events_ok evs [] /\ closed evs) /\ rel st' (mk_ps g' sv t') base /\ steps c st fs pg evs st').
  { intros s' g' t' H K. exists [], (s' :: saved ++ base). split; [split; [constructor|left; reflexivity]|]. split; [exists s', saved; auto|]. intros a x X1 X2 X3. rewrite (H a x X1 X2 X3).
    rewrite set_current_recast. cbn [play bind]. rewrite X1, X2, X3, ST. reflexivity. }
  assert (CU : forall x, x_states x = st -> current x = cur) by (intros x X; unfold current; rewrite X, ST; reflexivity).
  unfold perform in PF. cbn [p_gs p_saved p_text] in PF. destruct SP.
  - (* Lead *) injection PF as <- <-. apply (Q (set_tl cur q)).
    + intros a x X1 X2 X3. run ON OP CU X1. rewrite (real_ok [o] 0 o q) by (reflexivity || assumption). reflexivity.
    + opens SK. repeat (split; [assumption || reflexivity|]). exact K.
  - (* Concat *) destruct tx as [t|]; [discriminate|]. injection PF as <- <-. apply (Q (cm_operator m cur)).
    + intros a x X1 X2 X3. run ON OP CU X1. rewrite (numbers_matrix l m) by assumption. reflexivity.
    + opens SK. repeat (split; [assumption || reflexivity|]). split; [apply meq_mult; [apply meq_refl|exact I]|]. split; [apply meq_refl|exact K].
      intro h. destruct (EV h) as (V1 & V2 & (V3 & V4 & V5) & V6). destruct (PE h) as (P1 & P2 & P3). split; [exact V1|]. split; [exact V2|]. split; [|exact V6].
      cbn [g_ctm product ma mb mc md]. rewrite P1, P2, P3, V3, V4, V5. repeat split; ring.
  - (* Move *) destruct tx as [[tmx tl0]|]; [|discriminate]. injection PF as <- <-. apply (Q (td_operator e (x, y) cur)).
    + intros u z X1 X2 X3. run ON OP CU X1. rewrite (real_ok [a; b] 0 b y), (real_ok [a; b] 1 a x) by (reflexivity || assumption). reflexivity.
    + opens SK. repeat (split; [assumption || reflexivity|]). split; [apply meq_refl|]. destruct K as (K1 & K2 & K3 & K4).
      split; [apply meq_translate, K2|]. split; [apply meq_translate, K2|]. split; apply upright_shift, K4.
      intro h. destruct (GE (HG h)) as (_ & _ & _ & _ & _ & _ & _ & _ & K). cbn [text_rel] in K. destruct K as (_ & K2 & _ & K4).
      apply (evn_lines cur g g (translate (tlm cur) (x, y)) 0 h (EV h)); try reflexivity. cbn [translate mb]. apply (upright_meq _ _ K2 K4).
  - (* MoveLead *) destruct tx as [[tmx tl0]|]; [|discriminate]. injection PF as <- <-. apply (Q (set_tl (td_operator e (x, y) cur) (- y)%Q)).
    + intros u z X1 X2 X3. run ON OP CU X1. rewrite (real_ok [a; b] 0 b y), (real_ok [a; b] 1 a x) by (reflexivity || assumption). reflexivity.
    + opens SK. repeat (split; [assumption || reflexivity|]). split; [apply meq_refl|]. destruct K as (K1 & K2 & K3 & K4).
      split; [apply meq_translate, K2|]. split; [apply meq_translate, K2|]. split; apply upright_shift, K4.
      intro h. destruct (GE (HG h)) as (_ & _ & _ & _ & _ & _ & _ & _ & K). cbn [text_rel] in K. destruct K as (_ & K2 & _ & K4).
      match goal with |- evn _ ?gg => apply (evn_lines cur g gg (translate (tlm cur) (x, y)) (- y)%Q h (EV h)); try reflexivity end. cbn [translate mb]. apply (upright_meq _ _ K2 K4).
  - (* SetTm *) destruct tx as [[tmx tl0]|]; [|discriminate]. injection PF as <- <-. apply (Q (tm_operator e m cur)).
    + intros u z X1 X2 X3. run ON OP CU X1. rewrite (numbers_matrix l m) by assumption. reflexivity.
    + opens SK. repeat (split; [assumption || reflexivity|]). split; [apply meq_refl|]. split; [apply meq_refl|]. split; [apply meq_refl|].
      split; apply (PL g0).
      intro h. apply (evn_lines cur g g m 0 h (EV h)); try reflexivity. apply (PL (HG h)).
  - (* NextLine *) destruct tx as [[tmx tl0]|]; [|discriminate]. injection PF as <- <-. apply (Q (tstar_operator e cur)).
    + intros u z X1 X2 X3. run ON OP CU X1. reflexivity.
    + opens SK. repeat (split; [assumption || reflexivity|]). split; [apply meq_refl|]. destruct K as (K1 & K2 & K3 & K4).
      assert (QL : (- tlead cur == - g_lead g)%Q) by (rewrite C; reflexivity).
      split; [apply meq_ty; assumption|]. split; [apply meq_ty; assumption|]. split; apply upright_shift, K4.
      intro h. destruct (GE (HG h)) as (_ & _ & _ & _ & _ & _ & _ & _ & K). cbn [text_rel] in K. destruct K as (_ & K2 & _ & K4).
      apply (evn_lines cur g g (apply_ty (tlm cur) (- tlead cur)%Q) 0 h (EV h)); try reflexivity. cbn [apply_ty mb]. apply (upright_meq _ _ K2 K4).
  - (* Begin *) destruct tx as [t|]; [discriminate|]. injection PF as <- <-. apply (Q cur).
    + intros u z X1 X2 X3. run ON OP CU X1. f_equal. rewrite set_current_recast, <- (CU z X1), recast_current; [reflexivity|]. rewrite X1, ST. discriminate.
    + opens SK. repeat (split; [assumption || reflexivity|]). destruct K as (K1 & K2). repeat (split; [assumption|]). split; split; reflexivity.
  - (* End *) destruct tx as [t|]; [|discriminate]. injection PF as <- <-. apply (Q (end_text e cur)).
    + intros u z X1 X2 X3. run ON OP CU X1. reflexivity.
    + opens SK. repeat (split; [assumption || reflexivity|]). split; [apply meq_refl|]. split; apply meq_refl.
      intro h. apply (evn_lines cur g g identity 0 h (EV h)); reflexivity.
  - (* Font *) destruct (fonts e (cv_of fs pg) n) as [f|] eqn:FO; [|discriminate]. injection PF as <- <-. unfold fonts in FO.
    destruct (e_font e (cv_of fs pg) n) as [[f0|]|] eqn:EF; try discriminate. injection FO as ->. apply (Q (tf_operator e (cv_of fs pg) n q cur)).
    + intros u z X1 X2 X3. run ON OP CU X1. rewrite (real_ok [OName n; o] 0 o q) by (reflexivity || assumption). cbn [bind rev app stack_at nth_error].
      unfold canvas. rewrite X2, X3. reflexivity.
    + unfold tf_operator. rewrite EF. opens SK; [reflexivity| |]; [split; [intros _; reflexivity|]; repeat (split; [assumption || reflexivity|]); exact K|].
      intro h. destruct (EV h) as (V1 & V2 & V3 & V6). destruct (GE (HG h)) as (_ & B & _ & _ & _ & _ & _ & _ & K).
      assert (UP : (mb (tm cur) == 0)%Q).
      { destruct tx as [[m t]|]; cbn [text_rel] in K; [destruct K as (K1 & _ & K3 & _); apply (upright_meq _ _ K1 K3)|destruct K as ((_ & K1 & _) & _); rewrite K1; reflexivity]. }
      split; [rewrite space_len; [reflexivity|exact h|exact UP]|]. split; [exact V2|]. split; [exact V3|]. cbn [g_font g_size]. intros f1 X NZ. injection X as <-.
      unfold set_space, set_font, glyph_length. cbn [wraw tsize tchar]. rewrite B.
      assert (EQ : (f_space f * q + g_char g == f_space f * q)%Q) by (rewrite V2; ring).
      unfold nonzero. destruct (Qeq_bool (f_space f * q + g_char g) 0) eqn:QB; [apply Qeq_bool_iff in QB; rewrite EQ in QB; contradiction|]. exact EQ.
  - (* Show *) destruct tx as [[m t]|]; [|discriminate]. destruct (show_string spaces g m s) as [[m1 w1]|] eqn:SS; [|discriminate]. injection PF as <- <-.
    assert (NF : g_font g <> None) by (unfold show_string in SS; destruct (g_font g); congruence).
    destruct (show_sim cur h s true g m t w1 m1 NF SK SS) as (evs & s' & E1 & S1 & P1). { intro g0. specialize (TX g0). inversion TX; assumption. }
    exists evs, (s' :: saved ++ base). split; [split; [apply E1|apply E1; reflexivity]|]. split; [exists s', saved; auto|]. intros u z X1 X2 X3. rewrite ON; code OP. cbn [on_operator].
    unfold string_at. cbn [rev app stack_at nth_error bind]. rewrite P1 by (rewrite ?X1, ?ST; discriminate || apply CU, X1). rewrite X1, X2, X3, ST. reflexivity.
  - (* NextShow *) assert (NG : ~ G) by (intro g0; apply (PL g0)). destruct tx as [[m t]|]; [|discriminate].
    match type of PF with context [show_string spaces g ?mm s] => set (M := mm) in * end.
    destruct (show_string spaces g M s) as [[m1 w1]|] eqn:SS; [|discriminate]. injection PF as <- <-.
    assert (NF : g_font g <> None) by (unfold show_string in SS; destruct (g_font g); congruence).
    assert (SK' : st_ok cur g (Some (M, M))) by (split; [apply SK|split; [intro g0; destruct (NG g0)|intro g0; destruct (NG (HG g0))]]).
    destruct (show_sim cur h s true g M M w1 m1 NF SK' SS) as (evs & s' & E1 & S1 & P1). { intro g0; destruct (NG g0). }
    exists evs, (tstar_operator e s' :: saved ++ base). split; [split; [apply E1|apply E1; reflexivity]|]. split.
    { exists (tstar_operator e s'), saved. split; [reflexivity|]. split; [|exact SV]. split; [apply S1|split; [intro g0; destruct (NG g0)|intro g0; destruct (NG (HG g0))]]. }
    intros u z X1 X2 X3. rewrite ON; code OP. cbn [on_operator].
    unfold string_at. cbn [rev app stack_at nth_error bind]. rewrite P1 by (rewrite ?X1, ?ST; discriminate || apply CU, X1). rewrite X1, X2, X3, ST.
    destruct (play e u z evs); cbn [bind]; try reflexivity.
  - (* SpaceShow *) assert (NG : ~ G) by (intro g0; apply (PL g0)). destruct tx as [[m t]|]; [|discriminate].
    match type of PF with context [show_string spaces ?gg ?mm s] => set (M := mm) in *; set (GG := gg) in * end.
    destruct (show_string spaces GG M s) as [[m1 w1]|] eqn:SS; [|discriminate]. injection PF as <- <-.
    assert (NF : g_font GG <> None) by (unfold show_string in SS; destruct (g_font GG); congruence).
    assert (SK' : st_ok (set_spacing cur c0 w0) GG (Some (M, M))) by (split; [apply SK|split; [intro g0; destruct (NG g0)|intro g0; destruct (NG (HG g0))]]).
    destruct (show_sim (set_spacing cur c0 w0) h s true GG M M w1 m1 NF SK' SS) as (evs & s' & E1 & S1 & P1). { intro g0; destruct (NG g0). }
    exists evs, (tstar_operator e s' :: saved ++ base). split; [split; [apply E1|apply E1; reflexivity]|]. split.
    { exists (tstar_operator e s'), saved. split; [reflexivity|]. split; [|exact SV]. split; [apply S1|split; [intro g0; destruct (NG g0)|intro g0; destruct (NG (HG g0))]]. }
    intros u z X1 X2 X3. rewrite ON; code OP. cbn [on_operator].
    assert (SA : string_at (rev [a; b; OStr h s]) 0 = Ok (h, s)) by reflexivity. rewrite SA. cbn [bind].
    rewrite (real_ok [a; b; OStr h s] 1 b c0), (real_ok [a; b; OStr h s] 2 a w0) by (reflexivity || assumption). cbn [bind]. rewrite (CU z X1).
    rewrite P1 by (discriminate || reflexivity). rewrite set_current_recast, X1, X2, X3, ST, play_recast.
    cbn [tl x_states x_forms x_page recast].
    destruct (play e u z evs); cbn [bind]; try reflexivity.
  - (* ShowList *) destruct tx as [[m t]|]; [|discriminate]. destruct (show_pieces spaces g m p) as [[m1 w1]|] eqn:SS; [|discriminate]. injection PF as <- <-.
    assert (HH : exists evs s', events_ok evs w1 /\ st_ok s' g (Some (m1, t)) /\
      forall a x, x_states x <> [] -> current x = cur -> show_array e a x l = do y <- play e a x evs; Ok (recast y (s' :: tl (x_states x)) (x_forms x) (x_page x))).
    { destruct (g_font g) as [f|] eqn:GF.
      - apply (array_sim l p H cur g m t m1 w1); try assumption. congruence.
      - destruct p as [|q p]; [|exfalso; destruct q; cbn [show_pieces] in SS; unfold show_string in SS; rewrite GF in SS; discriminate].
        inversion H; subst l. injection SS as <- <-. exists [], cur. split; [constructor|]. split; [exact SK|]. intros a x NE CX. cbn [show_array play bind].
        rewrite <- CX, recast_current by exact NE. reflexivity. }
    destruct HH as (evs & s' & E1 & S1 & P1).
    exists (evs ++ [EEnd]), (s' :: saved ++ base). split; [split; [rewrite <- (app_nil_r w1); apply events_app; [exact E1|constructor]|apply closed_end]|]. split; [exists s', saved; auto|].
    intros u z X1 X2 X3. rewrite ON; code OP. cbn [on_operator]. cbn [rev app stack_at nth_error bind].
    rewrite P1 by (rewrite ?X1, ?ST; discriminate || apply CU, X1). rewrite X1, X2, X3, ST, play_app.
    destruct (play e u z evs); cbn [bind play]; try reflexivity. rewrite try_push_recast. reflexivity.
  - (* CharSp *) injection PF as <- <-. apply (Q (set_spacing cur q (tword cur))).
    + intros a x X1 X2 X3. run ON OP CU X1. rewrite (real_ok [o] 0 o q) by (reflexivity || assumption). reflexivity.
    + opens SK. repeat (split; [assumption || reflexivity|]). exact K.
      intro h. destruct (EV h) as (V1 & V2 & V3 & V6). split; [exact V1|]. split; [exact (PE h)|]. split; [exact V3|exact V6].
  - (* WordSp *) injection PF as <- <-. apply (Q (set_spacing cur (tchar cur) q)).
    + intros a x X1 X2 X3. run ON OP CU X1. rewrite (real_ok [o] 0 o q) by (reflexivity || assumption). reflexivity.
    + opens SK. repeat (split; [assumption || reflexivity || apply (PL g0)|]). exact K.
  - (* Scale *) injection PF as <- <-. apply (Q cur).
    + intros a x X1 X2 X3. run ON OP CU X1. f_equal. rewrite set_current_recast, <- (CU x X1), recast_current; [reflexivity|]. rewrite X1, ST. discriminate.
    + opens SK. repeat (split; [assumption || reflexivity|]). split; [|repeat (split; [assumption|]); exact K]. pose proof (PL g0) as PQ. cbn [plain_oper] in PQ. rewrite PQ. reflexivity.
  - (* Rise *) injection PF as <- <-. apply (Q cur).
    + intros a x X1 X2 X3. run ON OP CU X1. f_equal. rewrite set_current_recast, <- (CU x X1), recast_current; [reflexivity|]. rewrite X1, ST. discriminate.
    + opens SK. repeat (split; [assumption || reflexivity || apply (PL g0)|]). exact K.
  - (* Save *) destruct tx as [t|]; [discriminate|]. injection PF as <- <-. exists [], (cur :: st). split; [split; [constructor|left; reflexivity]|]. split.
    + exists cur, (cur :: saved). rewrite ST. split; [reflexivity|]. split; [exact SK|]. constructor; [exact SK|exact SV].
    + intros u z X1 X2 X3. run ON OP CU X1. unfold push_state. rewrite (CU z X1). cbn [play bind]. unfold recast. rewrite X1, X2, X3. reflexivity.
  - (* Restore *) destruct tx as [t|]; [discriminate|]. destruct sv as [|g1 sv]; [discriminate|]. injection PF as <- <-.
    inversion SV as [|s1 ? saved' ? H1 H2]; subst. exists [], (s1 :: saved' ++ base). split; [split; [constructor|left; reflexivity]|]. split.
    + exists s1, saved'. auto.
    + intros u z X1 X2 X3. run ON OP CU X1. unfold pop_state. rewrite X1. cbn [app length]. replace (Z.of_nat (S (S (length (saved' ++ base)))) <=? 1) with false by (symmetry; apply Z.leb_gt; lia).
      cbn [orb Z.ltb Z.compare play bind]. unfold recast. rewrite X2, X3. reflexivity.
  - (* Other *) injection PF as <- <-. exists [], st. split; [split; [constructor|left; reflexivity]|]. split; [exists cur, saved; auto|]. intros u z X1 X2 X3. rewrite ON.
    rewrite unhandled by (apply (other_unhandled n); assumption). cbn [play bind]. rewrite <- X1, <- X2, <- X3, recast_self. reflexivity.
Qed.
(** ** Contents *)
Lemma paint_form cv p f m l : paint (fonts e) spaces cv p (Form f m l) =
  match p_text p with
  | Some _ => None
  | None => let g := p_gs p in
    match paint_all (fonts e) spaces f (mk_ps (mk_gs (product m (g_ctm g)) (g_font g) (g_size g) (g_char g) (g_word g) (g_scale g) (g_rise g) (g_lead g)) [] None) l with
    | Some a => Some (p, a) | None => None end
  end.
Proof.
  cbn [paint]. destruct (p_text p); [reflexivity|]. cbv zeta.
  match goal with |- match ?go ?i l with Some _ => _ | None => _ end = _ => assert (X : forall l q, go q l = paint_all (fonts e) spaces f q l) end.
  { clear. induction l as [|t l IH]; intro q; [reflexivity|]. cbn [paint_all]. destruct (paint (fonts e) spaces f q t) as [[q' b]|]; [|reflexivity]. rewrite IH. reflexivity. }
  rewrite X. reflexivity.
Qed.
Lemma on_contents_app a l1 : forall x l2, on_contents e a x (l1 ++ l2) = do y <- on_contents e a x l1; on_contents e a y l2.
Proof. induction l1 as [|c l1 IH]; intros x l2; cbn [on_contents app]; [reflexivity|]. destruct (on_content e a x c); cbn [bind]; [apply IH|reflexivity..]. Qed.
Definition runs (l : list content) (st : list tstate) (fs : list (Z * nat)) (pg : Z) (evs : list event) (st' : list tstate) : Prop :=
  forall a x, x_states x = st -> x_forms x = fs -> x_page x = pg -> on_contents e a x l = do y <- play e a x evs; Ok (recast y st' fs pg).
Lemma contents_sim l t : spelled l t -> forall st fs pg p base w, rel st p base -> (G -> Forall plain_item t) -> (EVP -> Forall even_item t) -> paint_all (fonts e) spaces (cv_of fs pg) p t = Some w ->
  (G -> Forall textual w) -> exists evs st' p', (events_ok evs w /\ closed evs) /\ rel st' p' base /\ runs l st fs pg evs st'.
Proof.
  induction 1 as [|c l o t SP SL IH|c l t CT SL IH|c f m b body d l t CT CX SB IHB DT SL IHL]; intros st fs pg p base w R PLN EVN PA TX.
  - cbn [paint_all] in PA. injection PA as <-. exists [], st, p. split; [split; [constructor|left; reflexivity]|]. split; [exact R|]. intros a x X1 X2 X3. cbn [on_contents play bind].
    rewrite <- X1, <- X2, <- X3, recast_self. reflexivity.
  - cbn [paint_all paint] in PA. destruct (perform (fonts e) spaces (cv_of fs pg) p o) as [[p1 w1]|] eqn:PF; [|discriminate].
    destruct (paint_all (fonts e) spaces (cv_of fs pg) p1 t) as [w2|] eqn:P2; [|discriminate]. injection PA as <-.
    destruct (op_sim c o st fs pg p base p1 w1 SP R) as (e1 & st1 & E1 & R1 & S1); [| |exact PF| |].
    { intro g0. specialize (PLN g0). inversion PLN as [|? ? PX]; subst. inversion PX; assumption. }
    { intro g0. specialize (EVN g0). inversion EVN as [|? ? PX]; subst. inversion PX; assumption. }
    { intro g0. specialize (TX g0). apply Forall_app in TX. apply TX. }
    destruct (IH st1 fs pg p1 base w2 R1) as (e2 & st2 & p2 & E2 & R2 & S2); [| |exact P2| |].
    { intro g0. specialize (PLN g0). inversion PLN; assumption. }
    { intro g0. specialize (EVN g0). inversion EVN; assumption. }
    { intro g0. specialize (TX g0). apply Forall_app in TX. apply TX. }
    exists (e1 ++ e2), st2, p2. split; [split; [apply events_app; [apply E1|apply E2]|apply closed_app; [apply E1|apply E2]]|]. split; [exact R2|]. intros a x X1 X2 X3. cbn [on_contents]. rewrite (S1 a x X1 X2 X3), play_app.
    destruct (play e a x e1) as [y| | |]; cbn [bind]; try reflexivity. rewrite (S2 a) by reflexivity. apply play_recast.
  - destruct (IH st fs pg p base w R PLN EVN PA TX) as (e2 & st2 & p2 & E2 & R2 & S2). exists e2, st2, p2. split; [exact E2|]. split; [exact R2|].
    intros a x X1 X2 X3. cbn [on_contents]. unfold on_content. destruct CT as [-> | ->]; cbn [bind]; apply S2; assumption.
  - cbn [paint_all] in PA. rewrite paint_form in PA. destruct p as [g sv tx]. cbn [p_gs p_text] in PA. destruct tx as [?|]; [discriminate|]. cbv zeta in PA.
    match type of PA with context [paint_all (fonts e) spaces f ?q body] => set (P0 := q) in * end.
    destruct (paint_all (fonts e) spaces f P0 body) as [w1|] eqn:P1; [|discriminate].
    match type of PA with context [paint_all (fonts e) spaces (cv_of fs pg) ?q t] => destruct (paint_all (fonts e) spaces (cv_of fs pg) q t) as [w2|] eqn:P2; [|discriminate] end.
    injection PA as <-. pose proof R as R0. destruct R as (cur & saved & ST & SK & SV).
    destruct (IHB (cur :: st) ((f, length st) :: fs) pg P0 st w1) as (e1 & st1 & p1 & E1 & R1 & S1); [| | |exact P1| |].
    { exists cur, []. split; [reflexivity|]. split; [|constructor]. subst P0. cbn [p_gs p_text]. opens SK.
      - repeat (split; [assumption || reflexivity|]). split; [|split; [exact J|exact K]].
      eapply meq_trans; [exact I|]. specialize (PLN g0). inversion PLN as [|? ? PX]; subst. inversion PX as [|? ? ? MI]; subst.
      destruct MI as (M1 & M2 & M3 & M4 & M5 & M6). unfold meq. cbn [p_gs product ma mb mc md me mf]. rewrite M1, M2, M3, M4, M5, M6. repeat split; ring.
      - intro h. destruct (EV h) as (V1 & V2 & (V3 & V4 & V5) & V6). split; [exact V1|]. split; [exact V2|]. split; [|exact V6].
        specialize (PLN (HG h)). inversion PLN as [|? ? PX]; subst. inversion PX as [|? ? ? MI]; subst.
        destruct MI as (M1 & M2 & M3 & M4 & M5 & M6). cbn [p_gs g_ctm product ma mb mc md me mf] in *. rewrite M1, M2, M3, M4, V3, V4, V5. repeat split; ring. }
    { intro g0. specialize (PLN g0). inversion PLN as [|? ? PX]; subst. inversion PX; assumption. }
    { intro g0. specialize (EVN g0). inversion EVN as [|? ? PX]; subst. inversion PX; assumption. }
    { intro g0. specialize (TX g0). apply Forall_app in TX. apply TX. }
    destruct (IHL st fs pg (mk_ps g sv None) base w2 R0) as (e2 & st2 & p2 & E2 & R2 & S2); [| |exact P2| |].
    { intro g0. specialize (PLN g0). inversion PLN; assumption. }
    { intro g0. specialize (EVN g0). inversion EVN; assumption. }
    { intro g0. specialize (TX g0). apply Forall_app in TX. apply TX. }
    exists (e1 ++ e2), st2, p2. split; [split; [apply events_app; [apply E1|apply E2]|apply closed_app; [apply E1|apply E2]]|]. split; [exact R2|]. intros a x X1 X2 X3.
    cbn [on_contents]. unfold on_content at 1. rewrite CT, CX. cbn [bind].
    set (x1 := push_state _). assert (x1 = recast x (cur :: st) ((f, length st) :: fs) pg) as ->.
    { subst x1. unfold push_state, recast, current. cbn [x_states x_forms x_entries x_chunk x_chunks x_line x_prev x_page]. rewrite X1, X2, X3, ST. reflexivity. }
    rewrite on_contents_app. rewrite (S1 a) by reflexivity. rewrite play_app, play_recast.
    destruct (play e a x e1) as [y| | |]; cbn [bind on_contents]; try reflexivity.
    unfold on_content. rewrite DT. cbn [x_forms recast x_states].
    destruct R1 as (c1 & s1 & ST1 & _ & _). rewrite ST1. unfold pop_state. cbn [x_states recast].
    replace (Z.of_nat (length (c1 :: s1 ++ st)) - Z.of_nat (length st)) with (Z.of_nat (length (c1 :: s1))) by (cbn [length]; rewrite app_length; lia).
    replace (Z.of_nat (length (c1 :: s1)) <? 0) with false by (symmetry; apply Z.ltb_ge; lia).
    replace (Z.of_nat (length (c1 :: s1 ++ st)) <=? Z.of_nat (length (c1 :: s1))) with false by (symmetry; apply Z.leb_gt; cbn [length]; rewrite app_length, ST; cbn [length]; lia).
    cbn [orb bind]. rewrite Nat2Z.id. change (c1 :: s1 ++ st) with ((c1 :: s1) ++ st). rewrite skipn_app, skipn_all, Nat.sub_diag. cbn [skipn app].
    cbn [x_entries x_chunk x_chunks x_states x_forms x_line x_prev x_page recast].
    rewrite (S2 a) by reflexivity. apply (play_recast e a e2 y).
Qed.
(** A page from its beginning *)
Lemma start_rel : rel [start] page_start [].
Proof.
  exists start, []. split; [reflexivity|]. split; [|constructor]. split; [reflexivity|]. split.
  - intros _. unfold geo. cbn. split; [congruence|].
    repeat (split; [reflexivity|]). split; [apply meq_refl|]. split; [|split; apply meq_refl]. unfold meq. cbn. repeat split; ring.
  - intros _. unfold evn. cbn. split; [reflexivity|]. split; [reflexivity|]. split; [repeat split; reflexivity|discriminate].
Qed.
Lemma page_sim l t pg w : spelled l t -> (G -> Forall plain_item t) -> (EVP -> Forall even_item t) -> page_shows (fonts e) spaces pg t = Some w -> (G -> Forall textual w) ->
  exists evs, (events_ok evs w /\ closed evs) /\ forall a, exists st, on_contents e a (new_context pg) l = do y <- play e a (new_context pg) evs; Ok (recast y st [] pg).
Proof.
  intros SL PLN EVN PA TX. destruct (contents_sim l t SL [start] [] pg page_start [] w start_rel PLN EVN PA TX) as (evs & st' & p' & E & R & S1).
  exists evs. split; [exact E|]. intro a. exists st'. apply S1; reflexivity.
Qed.
End Sim.
