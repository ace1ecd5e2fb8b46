(** Extraction of text: the entries of pages. *)
From Coq Require Import String QArith Qabs Lqa Setoid.
From Verif Require Import Base ChainProofs TokModel RectModel OpTables ContentsModel ExtractModel ExtractSpec ExtractProofs ExtractSimProofs ExtractGroupProofs ExtractTrimProofs ExtractWordProofs.
Local Open Scope Z_scope.

(** ** Lines *)
Definition ext (k : sep) (f : shown) (t : list Z) (b : shown) : list (shown * list Z) :=
  match k with Tight => [(f, t ++ sh_text b)] | Space => [(f, t ++ 32 :: sh_text b)] | Apart => [(f, t); (b, sh_text b)] end.
Lemma laid_head ev ww a l r : laid ev ww (a :: l) r -> exists t q, r = (a, t) :: q.
Proof. intro H. inversion H; subst; eauto. Qed.
Lemma laid_snoc ev ww k w : forall a b r f t, laid ev ww (w ++ [a]) (r ++ [(f, t)]) -> sep_ok ev ww a b k -> laid ev ww (w ++ [a; b]) (r ++ ext k f t b).
Proof.
  induction w as [|c w IH]; intros a b r f t L S; cbn [app] in *.
  - inversion L as [|a0 E1 E2| | |]; subst. destruct r as [|? [|? ?]]; try discriminate. cbn [app] in *. injection E2 as <- <-.
    destruct k; cbn [ext].
    + apply LTight; [exact S|constructor].
    + apply LSpace; [exact S|constructor].
    + apply LApart; [exact S|constructor].
  - assert (X : exists b' l', w ++ [a] = b' :: l' /\ w ++ [a; b] = b' :: (l' ++ [b])).
    { destruct w as [|b' w]; cbn [app]; [exists a, []; auto|]. exists b', (w ++ [a]). rewrite <- app_assoc. auto. }
    destruct X as (b' & l' & X1 & X2). rewrite X1 in L.
    assert (CASE : forall (mid : shown * list Z) q, mid :: q = r ++ [(f, t)] -> (q = [] /\ r = [] /\ mid = (f, t)) \/ (exists r', r = mid :: r' /\ q = r' ++ [(f, t)])).
    { intros mid q E. destruct r as [|m0 r0]; cbn [app] in E; injection E as -> ->; [left; auto|right; eauto]. }
    specialize (IH a b). rewrite X1, X2 in IH. rewrite X2. inversion L as [|? E1 E2|? ? ? t' q SO LI E1 E2|? ? ? t' q SO LI E1 E2|? ? ? t' q SO LI E1 E2]; subst.
    + destruct (CASE _ _ E2) as [(-> & -> & Y)|(r' & -> & ->)].
      * injection Y as <- <-. specialize (IH [] b' t' LI S). destruct k; cbn [app ext] in *; rewrite <- ?app_assoc; apply LTight; assumption.
      * specialize (IH ((b', t') :: r') f t LI S). cbn [app] in *. apply LTight; assumption.
    + destruct (CASE _ _ E2) as [(-> & -> & Y)|(r' & -> & ->)].
      * injection Y as <- <-. specialize (IH [] b' t' LI S). destruct k; cbn [app ext] in *; rewrite <- ?app_assoc; apply (LSpace _ _ c b'); assumption.
      * specialize (IH ((b', t') :: r') f t LI S). cbn [app] in *. apply LSpace; assumption.
    + destruct (CASE _ _ E2) as [(Y & _)|(r' & -> & E3)]; [discriminate|]. specialize (IH r' f t). rewrite <- E3 in IH. specialize (IH LI S). cbn [app].
      destruct (laid_head _ _ _ _ _ IH) as (t2 & q2 & E4). rewrite E4 in *. apply LApart; assumption.
Qed.
(** ** What is between two strings *)
Lemma ltb_iff a b : ltb a b = true <-> (a < b)%Q.
Proof.
  unfold ltb. destruct (Qle_bool b a) eqn:E; cbn [negb]; split; intro H; try discriminate; try reflexivity.
  - apply Qle_bool_iff in E. exfalso. apply (Qlt_not_le _ _ H E).
  - apply Qnot_le_lt. intro L. apply Qle_bool_iff in L. congruence.
Qed.
Lemma ltb_not a b : ltb a b = false <-> (b <= a)%Q.
Proof. unfold ltb. rewrite negb_false_iff. apply Qle_bool_iff. Qed.
Lemma qle_not a b : Qle_bool a b = false <-> (b < a)%Q.
Proof. rewrite <- ltb_iff. unfold ltb. destruct (Qle_bool a b); cbn; split; congruence. Qed.
Section Between.
Variable e : env.
Variable a : args.
Variable ev : bool.
Hypothesis EL : ev = true -> forall x y, (y == 0)%Q -> (e_len e x y == Qabs x)%Q.
Notation R := (str_ok True (ev = true)).
Lemma near_iff s t u v : R s u -> R t v -> near s t = true <-> one_line u v.
Proof.
  intros (_ & A & _) (_ & B & _). destruct (A Logic.I) as ((_ & A1) & _). destruct (B Logic.I) as ((_ & B1) & _). unfold near, same_line, one_line.
  rewrite andb_true_iff, !ltb_iff, A1, B1. tauto.
Qed.
Lemma reach_gap s t u v : R s u -> R t v -> measured ev u v -> (reach e s t == gap u v)%Q.
Proof.
  intros (_ & A & _) (_ & B & _) (E & Y & _). destruct (A Logic.I) as (_ & (A1 & A2)). destruct (B Logic.I) as ((B1 & B2) & _). unfold reach, gap, vlen, vsub. cbn [fst snd].
  rewrite (EL E) by (rewrite B2, A2, Y; ring). rewrite B1, A1. reflexivity.
Qed.
Lemma wide_eq t v u : R t v -> measured ev u v -> (wlen (ss_state t) == sh_wide v)%Q.
Proof. intros (_ & _ & H) (E & _ & W). apply (H E W). Qed.
Lemma text_eq s u : R s u -> ss_text s = sh_text u.
Proof. intros ((T & _) & _). exact T. Qed.
Lemma white_iff_between s t u v : R s u -> R t v -> ends_white s || begins_white t = true <-> white_between u v.
Proof.
  intros A B. unfold ends_white, begins_white, white_between. rewrite (text_eq s u A), (text_eq t v B), orb_true_iff. split; (intros [H|H]; [left|right]).
  - destruct (rev (sh_text u)) as [|c r] eqn:RV; [discriminate|]. exists (rev r), c. split; [|apply white_iff, H]. rewrite <- (rev_involutive (sh_text u)), RV. reflexivity.
  - apply existsb_exists in H as (c & IN & W). apply Exists_exists. exists c. split; [exact IN|apply white_iff, W].
  - destruct H as (q & c & -> & K). rewrite rev_app_distr. cbn [rev app]. apply white_iff, K.
  - apply Exists_exists in H as (c & IN & W). apply existsb_exists. exists c. split; [exact IN|apply white_iff, W].
Qed.
Lemma kind_sep s t u v k : R s u -> R t v -> kind_ok e a s t k -> sep_ok ev (o_words (a_opts a)) u v k.
Proof.
  intros A B K. destruct k; cbn [kind_ok sep_ok] in *.
  - destruct K as (N & K). split; [apply (near_iff s t u v A B), N|]. intro M. unfold far, very_far in K. destruct K as [K|(K1 & OW & K2 & K3)].
    + left. apply qle_not in K. rewrite (reach_gap s t u v A B M), (wide_eq t v u B M) in K. exact K.
    + right. split; [exact OW|]. split; [apply (white_iff_between s t u v A B), K3|]. apply ltb_not in K2. rewrite (reach_gap s t u v A B M), (wide_eq t v u B M) in K2.
      rewrite Qmult_comm. exact K2.
  - destruct K as (N & K1 & OW & K2 & K3). split; [exact OW|]. split; [apply (near_iff s t u v A B), N|]. split.
    + intro W. apply (white_iff_between s t u v A B) in W. congruence.
    + intro M. unfold far, very_far in *. apply Qle_bool_iff in K1. apply ltb_not in K2. rewrite (reach_gap s t u v A B M), (wide_eq t v u B M) in K1, K2.
      split; [exact K1|]. rewrite Qmult_comm. exact K2.
  - intros OL M. destruct K as [N|(K1 & K2)]; [apply (near_iff s t u v A B) in OL; congruence|]. unfold far, very_far in *. apply Qle_bool_iff in K1. rewrite (reach_gap s t u v A B M), (wide_eq t v u B M) in K1.
    destruct (o_words (a_opts a)); [exact K1|]. cbn [orb] in K2. apply ltb_iff in K2. rewrite (reach_gap s t u v A B M), (wide_eq t v u B M) in K2. rewrite Qmult_comm. exact K2.
Qed.
Definition line_of (h : list sstr * list sstr) (r : shown * list Z) : Prop := snd r = ctext (snd h) /\ exists s g l, fst h = s :: g /\ snd h = s :: l /\ R s (fst r).
Lemma hist_laid h : hist e a h -> forall w, Forall2 R (concat (map fst h)) w -> exists r, laid ev (o_words (a_opts a)) w r /\ Forall2 line_of h r.
Proof.
  assert (ONE : forall g p s, concat (map fst (g ++ [(p : list sstr, s : list sstr)])) = concat (map fst g) ++ p).
  { intros g p s. rewrite map_app, concat_app. cbn [map concat fst]. rewrite app_nil_r. reflexivity. }
  induction 1 as [|s|r g p l s H IH K|r g p l f s H IH K T M|r g p l s H IH K]; intros w F.
  - inversion F; subst. exists []. split; constructor.
  - cbn [map concat fst app] in F. inversion F as [|? u ? ? A B]; subst. inversion B; subst. exists [(u, sh_text u)]. split; [constructor|]. constructor; [|constructor].
    split; [cbn [snd]; unfold ctext; cbn [map concat]; rewrite app_nil_r; symmetry; apply text_eq, A|]. exists s, [], []. auto.
  - rewrite ONE, snoc2, app_assoc in F. apply Forall2_app_inv_l in F as (w1 & w2 & F1 & F2 & ->). inversion F2 as [|? v ? ? B B0]; subst. inversion B0; subst.
    rewrite <- ONE with (s := l) in F1. destruct (IH w1 F1) as (q & L & LF). rewrite ONE, app_assoc in F1. apply Forall2_app_inv_l in F1 as (w3 & w4 & F3 & F4 & ->).
    inversion F4 as [|? u ? ? A A0]; subst. inversion A0; subst. apply Forall2_app_inv_l in LF as (q1 & q2 & LF1 & LF2 & ->). inversion LF2 as [|? [fst_ t_] ? ? LH LN]; subst. inversion LN; subst.
    rewrite <- app_assoc. cbn [app]. exists (q1 ++ ext Tight fst_ t_ v). split; [apply laid_snoc; [exact L|apply (kind_sep p s u v Tight A B K)]|].
    apply Forall2_app; [exact LF1|]. constructor; [|constructor]. destruct LH as (LT & s0 & g0 & l0 & G1 & G2 & RS). cbn [fst snd] in *. split; cbn [fst snd].
    + rewrite ctext_app, LT. f_equal. unfold ctext. cbn [map concat]. rewrite app_nil_r. symmetry. apply text_eq, B.
    + exists s0, (g0 ++ [s]), (l0 ++ [s]). rewrite snoc2, G1, G2. auto.
  - rewrite ONE, snoc2, app_assoc in F. apply Forall2_app_inv_l in F as (w1 & w2 & F1 & F2 & ->). inversion F2 as [|? v ? ? B B0]; subst. inversion B0; subst.
    rewrite <- ONE with (s := l) in F1. destruct (IH w1 F1) as (q & L & LF). rewrite ONE, app_assoc in F1. apply Forall2_app_inv_l in F1 as (w3 & w4 & F3 & F4 & ->).
    inversion F4 as [|? u ? ? A A0]; subst. inversion A0; subst. apply Forall2_app_inv_l in LF as (q1 & q2 & LF1 & LF2 & ->). inversion LF2 as [|? [fst_ t_] ? ? LH LN]; subst. inversion LN; subst.
    rewrite <- app_assoc. cbn [app]. exists (q1 ++ ext Space fst_ t_ v). split; [apply laid_snoc; [exact L|apply (kind_sep p s u v Space A B K)]|].
    apply Forall2_app; [exact LF1|]. constructor; [|constructor]. destruct LH as (LT & s0 & g0 & l0 & G1 & G2 & RS). cbn [fst snd] in *. split; cbn [fst snd].
    + rewrite ctext_app, LT. f_equal. unfold ctext. cbn [map concat]. rewrite app_nil_r, T. cbn [app]. f_equal. symmetry. apply text_eq, B.
    + exists s0, (g0 ++ [s]), (l0 ++ [f; s]). rewrite snoc2, G1, G2. auto.
  - change (r ++ [(g ++ [p], l); ([s], [s])]) with (r ++ [(g ++ [p], l)] ++ [([s], [s])]) in *. rewrite app_assoc in *. rewrite ONE in F.
    apply Forall2_app_inv_l in F as (w1 & w2 & F1 & F2 & ->). inversion F2 as [|? v ? ? B B0]; subst. inversion B0; subst.
    destruct (IH w1 F1) as (q & L & LF). rewrite ONE, app_assoc in F1. apply Forall2_app_inv_l in F1 as (w3 & w4 & F3 & F4 & ->).
    inversion F4 as [|? u ? ? A A0]; subst. inversion A0; subst. apply Forall2_app_inv_l in LF as (q1 & q2 & LF1 & LF2 & ->). inversion LF2 as [|? [fst_ t_] ? ? LH LN]; subst. inversion LN; subst.
    rewrite <- app_assoc. cbn [app]. exists (q1 ++ ext Apart fst_ t_ v). split; [apply laid_snoc; [exact L|apply (kind_sep p s u v Apart A B K)]|].
    rewrite <- app_assoc. apply Forall2_app; [exact LF1|]. cbn [ext app]. constructor; [exact LH|]. constructor; [|constructor]. split; cbn [fst snd].
    + unfold ctext. cbn [map concat]. rewrite app_nil_r. symmetry. apply text_eq, B.
    + exists s, [], []. auto.
Qed.
End Between.
(** ** Whole pages *)
Lemma spaced_sound fk g l : spaced fk g l -> Forall (fun s => exists c, made s c) g -> Forall sound l.
Proof.
  induction 1 as [s|g l s H IH|g l f s K H IH T M]; intro F.
  - inversion F as [|? ? (c & C) _]; subst. constructor; [apply (made_sound s c C)|constructor].
  - apply Forall_app in F as (F1 & F2). inversion F2 as [|? ? (c & C) _]; subst. apply Forall_app. split; [apply IH, F1|]. constructor; [apply (made_sound s c C)|constructor].
  - apply Forall_app in F as (F1 & F2). inversion F2 as [|? ? (c & C) _]; subst. apply Forall_app. split; [apply IH, F1|]. constructor; [apply (made_sound f _ M)|]. constructor; [apply (made_sound s c C)|constructor].
Qed.
Lemma spaced_exact g l : spaced false g l -> l = g.
Proof. induction 1 as [s|g l s H IH|g l f s K H IH T M]; [reflexivity|congruence|discriminate]. Qed.
Lemma full_first L : full L -> exists f r, concat L = f :: r.
Proof. intros (N & F). destruct L as [|[|s c] L]; [congruence|inversion F; congruence|]. eexists; eexists; reflexivity. Qed.
(** The entries of one group *)
Definition keep_result (a : args) (h : list sstr * list sstr) (en : list entry) : Prop :=
  exists s l w, snd h = s :: l /\ en = [mk_entry (ctext (snd h)) (fst (placed a s)) (snd (placed a s)) w].
Definition trim_result (a : args) (h : list sstr * list sstr) (en : list entry) : Prop :=
  (Forall blank (ctext (snd h)) /\ en = []) \/
  exists t x y w, en = [mk_entry t x y w] /\ stripped (ctext (snd h)) t /\ t <> [] /\
    forall s l z u, snd h = s :: l -> ss_text s = z :: u -> ~ blank z -> (x, y) = placed a s.
Lemma keep_group e a g l : a_pattern a = [] -> a_clip a = None -> o_words (a_opts a) = false -> o_trim (a_opts a) = false -> Forall sound (concat l) -> full l ->
  exists en, add_entry e a l = Ok en /\ keep_result a (g, concat l) en.
Proof.
  intros PA CL OW OT S FU. unfold add_entry. rewrite OW. destruct (full_first l FU) as (f & r & C).
  destruct (chunk_entry e a l l f r PA CL) as (w & E); [rewrite OT; reflexivity|exact FU|exact C|exact S|]. rewrite E. eexists. split; [reflexivity|]. exists f, r, w. cbn [snd]. auto.
Qed.
Lemma placed_state a s t : ss_state s = ss_state t -> placed a s = placed a t.
Proof. intro E. unfold placed, ss_at. rewrite E. reflexivity. Qed.
Lemma trim_group e a g l : a_pattern a = [] -> a_clip a = None -> o_words (a_opts a) = false -> o_trim (a_opts a) = true -> Forall sound (concat l) -> full l ->
  exists en, add_entry e a l = Ok en /\ trim_result a (g, concat l) en.
Proof.
  intros PA CL OW OT S (NF & FN). unfold add_entry. rewrite OW. destruct (trim_spec e l FN S) as [(B & T)|(L & TL & FU & SL & ST & NE)].
  - exists []. split; [unfold add_entry_chunk; rewrite OT, T; reflexivity|]. left. auto.
  - destruct (full_first L FU) as (f & r & C). destruct (chunk_entry e a l L f r PA CL) as (w & E); [rewrite OT; exact TL|exact FU|exact C|exact SL|]. rewrite E. eexists. split; [reflexivity|].
    right. exists (text_of L), (fst (placed a f)), (snd (placed a f)), w. split; [reflexivity|]. split; [exact ST|]. split; [exact NE|]. cbn [snd]. intros s q z u CC TX NB.
    destruct l as [|c l]; [discriminate CC|]. destruct c as [|s0 c]; [inversion FN as [|? ? X]; destruct (X eq_refl)|]. cbn [concat app] in CC. injection CC as -> CC.
    destruct (trim_first e (s :: c) l s c FN S eq_refl) as (s' & q' & C' & SS); [eauto|]. rewrite TL, C in C'. injection C' as -> _. rewrite <- surjective_pairing. apply placed_state, SS.
Qed.
Definition fine (a : args) (s : sstr) : Prop := exists c, made s c /\ (o_words (a_opts a) = true -> Forall one_kind c).
Lemma fine_made a s : fine a s -> exists c, made s c. Proof. intros (c & M & _). eauto. Qed.
(** All modes *)
Definition result (a : args) (h : list sstr * list sstr) (en : list entry) : Prop :=
  if o_words (a_opts a) then words (ctext (snd h)) (map en_text en) else if o_trim (a_opts a) then trim_result a h en else keep_result a h en.
Lemma any_group e a g l : a_pattern a = [] -> a_clip a = None -> (o_words (a_opts a) = true -> o_trim (a_opts a) = true) -> spaced (fakes a) g (concat l) -> Forall (fine a) g -> full l ->
  exists en, add_entry e a l = Ok en /\ result a (g, concat l) en.
Proof.
  intros PA CL WT SP F FU. unfold result. assert (S : Forall sound (concat l)) by (apply (spaced_sound _ _ _ SP); eapply Forall_impl; [|exact F]; apply fine_made).
  destruct (o_words (a_opts a)) eqn:OW.
  - assert (SE : concat l = g) by (unfold fakes in SP; rewrite OW in SP; apply spaced_exact, SP). destruct (words_entries e a l PA CL (WT eq_refl) OW) as (en & E & W).
    + rewrite SE. eapply Forall_impl; [|exact F]. intros s (c & M & K). exists c. auto.
    + exists en. split; [exact E|]. exact W.
  - destruct (o_trim (a_opts a)) eqn:OT; [apply trim_group|apply keep_group]; assumption.
Qed.
Lemma extract_groups e a spaces (G EVP : Prop) l t pg w : (EVP -> G) -> (EVP -> forall x y, (y == 0)%Q -> (e_len e x y == Qabs x)%Q) ->
  spelled l t -> (G -> Forall plain_item t) -> (EVP -> Forall even_item t) -> page_shows (fonts e) spaces pg t = Some w -> (G -> Forall textual w) ->
  a_pattern a = [] -> a_clip a = None -> o_sub (a_opts a) = false -> (o_words (a_opts a) = true -> o_trim (a_opts a) = true) ->
  (o_words (a_opts a) = true -> Forall (fun s => Forall one_kind (sh_codes s)) w) ->
  exists h ens, extract e a pg l = Ok (concat ens) /\ hist e a h /\ Forall2 (str_ok G EVP) (concat (map fst h)) (filter has_text w) /\ Forall2 (result a) h ens.
Proof.
  intros HG EL SP PL EV PS TX PA CL OS WT OK. destruct (page_sim e spaces G EVP HG EL l t pg w SP PL EV PS TX) as (evs & (EO & CLO) & ON).
  assert (FI : Forall (fine a) (strings_of evs)).
  { unfold events_ok in EO. assert (OK2 : o_words (a_opts a) = true -> Forall (fun s => Forall one_kind (sh_codes s)) (filter has_text w)).
    { intro O. specialize (OK O). rewrite Forall_forall in *. intros x X. apply filter_In in X as (X & _). apply OK, X. }
    revert OK2. clear -EO. induction EO as [|s u l1 w1 (M & _) F IH]; intro OK2; constructor.
    - exists (sh_codes u). split; [exact M|]. intro O. specialize (OK2 O). inversion OK2; assumption.
    - apply IH. intro O. specialize (OK2 O). inversion OK2; assumption. }
  destruct (page_groups e a (fine a)) with (pg := pg) (evs := evs) as (y & h & rs & PY & FY & CC & HI & FF & GO).
  - intros g l0 S F FU. destruct (any_group e a g l0 PA CL WT S F FU) as (en & E & _). eauto.
  - exact CLO.
  - exact FI.
  - exists h, (map snd rs). destruct (ON a) as (st & ONA). split; [|split; [exact HI|split]].
    + unfold extract. rewrite OS, PA. cbn [andb]. rewrite ONA, PY. cbn [bind x_chunks recast].
      destruct (x_chunks y) as [|c cs] eqn:K; [cbn [bind recast x_entries]; injection FY as FY; rewrite FY; reflexivity|].
      rewrite flush_recast. destruct (flush e a y) as [z| | |]; cbn [bind] in *; try discriminate FY. cbn [recast x_entries]. exact FY.
    + rewrite CC. exact EO.
    + pose proof (hist_spaced e a h HI) as HS. clear -GO HS FF PA CL WT. induction GO as [|[g l1] [cs en] h1 rs1 (A & B & C) GO IH]; cbn [map]; constructor.
      * cbn [fst snd] in *. inversion HS as [|? ? S _]; subst. inversion FF as [|? ? F _]; subst. cbn [fst snd] in *. destruct (any_group e a g cs PA CL WT S F B) as (en' & E & R).
        rewrite E in C. injection C as ->. exact R.
      * inversion HS; inversion FF; subst. apply IH; assumption.
Qed.
(** ** Texts of pages *)
Definition ink (t : list Z) : list Z := filter (fun c => negb (white c)) t.
Lemma bare_ink t u : bare t u <-> u = ink t.
Proof.
  split.
  - induction 1 as [|c t u B H IH|c t u B H IH]; unfold ink; cbn [filter]; [reflexivity| |].
    + rewrite (proj2 (white_iff c) B). exact IH.
    + rewrite (proj2 (white_false c) B). cbn [negb]. f_equal. exact IH.
  - intros ->. induction t as [|c t IH]; unfold ink; cbn [filter]; [constructor|]. destruct (white c) eqn:W; cbn [negb].
    + apply BSkip; [apply white_iff, W|exact IH].
    + apply BKeep; [apply white_false, W|exact IH].
Qed.
Lemma ink_app a b : ink (a ++ b) = ink a ++ ink b. Proof. apply filter_app. Qed.
Lemma ink_blank a : Forall blank a -> ink a = [].
Proof. induction 1 as [|c a B F IH]; [reflexivity|]. unfold ink. cbn [filter]. rewrite (proj2 (white_iff c) B). exact IH. Qed.
Lemma ink_solid a : Forall (fun c => ~ blank c) a -> ink a = a.
Proof. induction 1 as [|c a B F IH]; [reflexivity|]. unfold ink. cbn [filter]. rewrite (proj2 (white_false c) B). cbn [negb]. f_equal. exact IH. Qed.
Lemma ink_words t l : words t l -> ink (concat l) = ink t.
Proof.
  induction 1 as [|c t l B W IH|w t l N S T W IH].
  - reflexivity.
  - rewrite IH. unfold ink. cbn [filter]. rewrite (proj2 (white_iff c) B). reflexivity.
  - cbn [concat]. rewrite !ink_app, IH. reflexivity.
Qed.
Lemma ink_stripped t u : stripped t u -> ink u = ink t.
Proof. intros (a & b & -> & A & B & _). rewrite !ink_app, (ink_blank a A), (ink_blank b B), app_nil_r. reflexivity. Qed.
Lemma result_ink a h en : result a h en -> ink (concat (map en_text en)) = ink (ctext (snd h)).
Proof.
  unfold result. destruct (o_words (a_opts a)); [apply ink_words|]. destruct (o_trim (a_opts a)).
  - intros [(B & ->)|(t & x & y & w & -> & S & _)]; [rewrite (ink_blank _ B); reflexivity|]. cbn [map concat en_text]. rewrite app_nil_r. apply ink_stripped, S.
  - intros (s & l & w & _ & ->). cbn [map concat en_text]. rewrite app_nil_r. reflexivity.
Qed.
Lemma spaced_ink fk g l : spaced fk g l -> ink (ctext l) = ink (ctext g).
Proof.
  induction 1 as [s|g l s H IH|g l f s K H IH T M]; [reflexivity| |]; rewrite !ctext_app, !ink_app, IH; [reflexivity|]. f_equal.
  change [f; s] with ([f] ++ [s]). rewrite ctext_app, ink_app. unfold ctext at 1. cbn [map concat]. rewrite T. reflexivity.
Qed.
Lemma ink_all e a h : hist e a h -> ink (concat (map (fun r => ctext (snd r)) h)) = ink (ctext (concat (map fst h))).
Proof.
  intro H. apply hist_spaced in H. induction H as [|[g l] h S F IH]; [reflexivity|]. cbn [map concat fst snd] in *. rewrite ctext_app, !ink_app, IH. f_equal. apply (spaced_ink _ _ _ S).
Qed.
Lemma shown_ctext G EVP l w : Forall2 (str_ok G EVP) l w -> ctext l = concat (map sh_text w).
Proof. induction 1 as [|s u l w (M & _) F IH]; [reflexivity|]. unfold ctext in *. cbn [map concat]. rewrite IH. f_equal. destruct M as (T & _). exact T. Qed.
Lemma filter_text w : concat (map sh_text (filter has_text w)) = concat (map sh_text w).
Proof. induction w as [|s w IH]; [reflexivity|]. cbn [filter map concat]. unfold has_text at 1. destruct (sh_text s) eqn:E; cbn [map concat]; rewrite IH; [reflexivity|]. rewrite E. reflexivity. Qed.
Lemma results_ink a h ens : Forall2 (result a) h ens -> ink (concat (map en_text (concat ens))) = ink (concat (map (fun r => ctext (snd r)) h)).
Proof. induction 1 as [|h en hs ens R F IH]; [reflexivity|]. cbn [concat map]. rewrite map_app, concat_app, !ink_app, IH, (result_ink a h en R). reflexivity. Qed.

Lemma text_kept e a spaces l t pg w : spelled l t -> page_shows (fonts e) spaces pg t = Some w ->
  a_pattern a = [] -> a_clip a = None -> o_sub (a_opts a) = false -> (o_words (a_opts a) = true -> o_trim (a_opts a) = true) ->
  (o_words (a_opts a) = true -> Forall (fun s => Forall one_kind (sh_codes s)) w) ->
  exists en b, extract e a pg l = Ok en /\ bare (concat (map en_text en)) b /\ bare (concat (map sh_text w)) b.
Proof.
  intros SP PS PA CL OS WT OK. destruct (extract_groups e a spaces False False l t pg w) as (h & ens & E & H & F & R); try assumption; try (intros []).
  exists (concat ens), (ink (concat (map sh_text w))). split; [exact E|]. split; apply bare_ink; [|reflexivity]. rewrite (results_ink a h ens R), (ink_all e a h H), (shown_ctext _ _ _ _ F), filter_text. reflexivity.
Qed.

Definition turn_of (a : args) : option matrix := if o_raw (a_opts a) then None else a_rotation a.
Lemma placed_stands ev a s u : str_ok True (ev = true) s u -> stands (turn_of a) (fst (placed a s)) (snd (placed a s)) u.
Proof.
  intros (_ & A & _). destruct (A Logic.I) as ((X & Y) & _). unfold stands, turned, turn_of, placed, image. destruct (o_raw (a_opts a)), (a_rotation a) as [m|]; cbn [fst snd]; rewrite ?X, ?Y; split; reflexivity.
Qed.
Section Laid.
Variable e : env.
Variable a : args.
Variable ev : bool.
Variable spaces : font -> list Z -> list bool.
Variable l : list content.
Variable t : list item.
Variable pg : Z.
Variable w : list shown.
Hypothesis SP : spelled l t.
Hypothesis PL : Forall plain_item t.
Hypothesis EV : ev = true -> Forall even_item t /\ forall x y, (y == 0)%Q -> (e_len e x y == Qabs x)%Q.
Hypothesis PS : page_shows (fonts e) spaces pg t = Some w.
Hypothesis TX : Forall textual w.
Hypothesis PA : a_pattern a = [].
Hypothesis CL : a_clip a = None.
Hypothesis OS : o_sub (a_opts a) = false.
Hypothesis WT : o_words (a_opts a) = true -> o_trim (a_opts a) = true.
Hypothesis OK : o_words (a_opts a) = true -> Forall (fun s => Forall one_kind (sh_codes s)) w.
Lemma laid_groups : exists r ens, laid ev (o_words (a_opts a)) (filter has_text w) r /\ extract e a pg l = Ok (concat ens) /\
  Forall2 (fun rr en => exists h, line_of ev h rr /\ result a h en) r ens.
Proof.
  destruct (extract_groups e a spaces True (ev = true) l t pg w (fun _ => Logic.I) (fun X => proj2 (EV X)) SP (fun _ => PL) (fun X => proj1 (EV X)) PS (fun _ => TX) PA CL OS WT OK)
    as (h & ens & E & H & F & R).
  destruct (hist_laid e a ev (fun X => proj2 (EV X)) h H _ F) as (r & L & LF). exists r, ens. split; [exact L|]. split; [exact E|].
    clear -LF R. revert ens R. induction LF as [|hh rr h1 r1 A B IH]; intros ens R; inversion R; subst; constructor; [eauto|apply IH; assumption].
Qed.
Lemma kept_lines : o_words (a_opts a) = false -> o_trim (a_opts a) = false ->
  exists r en, laid ev false (filter has_text w) r /\ extract e a pg l = Ok en /\
    Forall2 (fun rr x => en_text x = snd rr /\ stands (turn_of a) (en_x x) (en_y x) (fst rr)) r en.
Proof.
  intros OW OT. destruct laid_groups as (r & ens & L & E & F). rewrite OW in L. exists r, (concat ens). split; [exact L|]. split; [exact E|]. unfold result in F. rewrite OW, OT in F. clear -F.
  induction F as [|rr en r ens (h & (T & s & g & q & G1 & G2 & RS) & (s' & q' & wd & G3 & ->)) F IH]; [constructor|]. cbn [concat app]. constructor; [|exact IH]. cbn [en_text en_x en_y].
  split; [symmetry; exact T|]. rewrite G2 in G3. injection G3 as <- <-. apply (placed_stands ev a s (fst rr) RS).
Qed.
Lemma trimmed_lines : o_words (a_opts a) = false -> o_trim (a_opts a) = true ->
  exists r ens, laid ev false (filter has_text w) r /\ extract e a pg l = Ok (concat ens) /\
    Forall2 (fun rr en => Forall blank (snd rr) /\ en = [] \/
      exists x, en = [x] /\ stripped (snd rr) (en_text x) /\ en_text x <> [] /\
        ((exists z u, sh_text (fst rr) = z :: u /\ ~ blank z) -> stands (turn_of a) (en_x x) (en_y x) (fst rr))) r ens.
Proof.
  intros OW OT. destruct laid_groups as (r & ens & L & E & F). rewrite OW in L. exists r, ens. split; [exact L|]. split; [exact E|]. unfold result in F. rewrite OW, OT in F. clear -F.
  induction F as [|rr en r ens (h & (T & s & g & q & G1 & G2 & RS) & K) F IH]; constructor; [|exact IH]. rewrite T. destruct K as [K|(tx & x & y & wd & -> & ST & NE & PL)]; [left; exact K|].
  right. eexists. split; [reflexivity|]. cbn [en_text en_x en_y]. split; [exact ST|]. split; [exact NE|]. intros (z & u & Z & NB).
  pose proof (PL s q z u G2) as P. rewrite (text_eq ev s (fst rr) RS) in P. specialize (P Z NB). replace x with (fst (placed a s)) by (rewrite <- P; reflexivity). replace y with (snd (placed a s)) by (rewrite <- P; reflexivity).
  apply (placed_stands ev a s (fst rr) RS).
Qed.
Lemma word_lines : o_words (a_opts a) = true ->
  exists r ens, laid ev true (filter has_text w) r /\ extract e a pg l = Ok (concat ens) /\ Forall2 (fun rr en => words (snd rr) (map en_text en)) r ens.
Proof.
  intros OW. destruct laid_groups as (r & ens & L & E & F). rewrite OW in L. exists r, ens. split; [exact L|]. split; [exact E|]. unfold result in F. rewrite OW in F. clear -F.
  induction F as [|rr en r ens (h & (T & _) & K) F IH]; constructor; [|exact IH]. rewrite T. exact K.
Qed.
End Laid.
Lemma words_inv t l : words t l -> t = [] /\ l = [] \/ (exists c t', t = c :: t' /\ blank c /\ words t' l) \/
  exists w t' l', t = w ++ t' /\ l = w :: l' /\ w <> [] /\ Forall (fun c => ~ blank c) w /\ (t' = [] \/ exists c r, t' = c :: r /\ blank c) /\ words t' l'.
Proof. intros [|c u k B W|w u k N S T W]; [auto| |]; right; [left; eauto|right]. exists w, u, k. auto 7. Qed.
Lemma words_unique t l1 : words t l1 -> forall l2, words t l2 -> l1 = l2.
Proof.
  assert (HD : forall w t c r, w <> [] -> Forall (fun c => ~ blank c) w -> w ++ t = c :: r -> ~ blank c).
  { intros w u c r N S E. destruct w as [|d w]; [congruence|]. cbn [app] in E. injection E as -> _. inversion S; assumption. }
  induction 1 as [|c t l B W IH|w t l N S T W IH]; intros l2 W2; apply words_inv in W2 as [(E & ->)|[(c' & t' & E & B' & W')|(w' & t' & l' & E & -> & N' & S' & T' & W')]]; try discriminate; try reflexivity.
  - symmetry in E. apply app_eq_nil in E as (E & _). congruence.
  - injection E as <- <-. apply IH, W'.
  - symmetry in E. destruct (HD _ _ _ _ N' S' E B).
  - apply app_eq_nil in E as (E & _). congruence.
  - destruct (HD _ _ _ _ N S E B').
  - assert (X : w = w' /\ t = t').
    { destruct (app_eq_app _ _ _ _ E) as (q & [(-> & Q)|(-> & Q)]); destruct q as [|x q]; cbn [app] in *; rewrite ?app_nil_r in *; try (split; [reflexivity|congruence]); exfalso; subst.
      - apply Forall_app in S as (_ & S). inversion S as [|? ? X]; subst. destruct T' as [T'|(c & r & T' & B)]; [discriminate T'|]. injection T' as -> _. destruct (X B).
      - apply Forall_app in S' as (_ & S'). inversion S' as [|? ? X]; subst. destruct T as [T|(c & r & T & B)]; [discriminate T|]. injection T as -> _. destruct (X B). }
    destruct X as (-> & ->). f_equal. apply IH, W'.
Qed.
