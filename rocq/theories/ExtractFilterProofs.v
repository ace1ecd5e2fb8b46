(** Searches: the entries of a search are those of the page without the search that the search wants *)
From Coq Require Import String QArith Qabs Lia Bool.
From Verif Require Import Base TokModel RectModel OpTables ContentsModel ExtractModel ExtractSpec ExtractProofs.
Local Open Scope Z_scope.

(** Results of two runs; [total]: the second run does not fail where the first does not *)
Definition rres {A B} (total : bool) (R : A -> B -> Prop) (x : res A) (y : res B) : Prop :=
  match x with Ok u => match y with Ok v => R u v | _ => total = false end | _ => True end.
Lemma rres_bind {A B C D} tt (R : A -> B -> Prop) (S : C -> D -> Prop) x y f g : rres tt R x y -> (forall u v, R u v -> rres tt S (f u) (g v)) -> rres tt S (do u <- x; f u) (do v <- y; g v).
Proof. unfold rres. intros H K. destruct x as [u| | |]; cbn [bind]; try exact Logic.I. destruct y as [v| | |]; cbn [bind]; [apply K, H|..]; destruct (f u); auto. Qed.
Lemma rres_same {A C D} tt (S : C -> D -> Prop) (x : res A) f g : (forall u, rres tt S (f u) (g u)) -> rres tt S (do u <- x; f u) (do v <- x; g v).
Proof. intro K. destruct x; cbn [bind]; try exact Logic.I. apply K. Qed.
Lemma rres_ok {A B} tt (R : A -> B -> Prop) u v : R u v -> rres tt R (Ok u) (Ok v). Proof. intro H. exact H. Qed.

Section Runs.
Variable e : env.
Variables a b : args.
Variable tt : bool.
Variable E : list entry -> list entry -> Prop.
Hypothesis EN : E [] [].
Hypothesis EA : forall l1 l2 r1 r2, E l1 r1 -> E l2 r2 -> E (l1 ++ l2) (r1 ++ r2).
Hypothesis OW : o_words (a_opts a) = o_words (a_opts b).
Hypothesis EC : forall l, rres tt E (add_entry_chunk e a l) (add_entry_chunk e b l).
Definition like (x y : context) : Prop := exists r, y = mk_cx r (x_chunk x) (x_chunks x) (x_states x) (x_forms x) (x_line x) (x_prev x) (x_page x) /\ E (x_entries x) r.
Lemma batches_like l : rres tt E (add_batches e a l) (add_batches e b l).
Proof.
  induction l as [|c l IH]; cbn [add_batches]; [exact EN|]. apply (rres_bind tt E); [apply EC|]. intros u v H. apply (rres_bind tt E); [exact IH|]. intros u' v' H'. apply EA; assumption.
Qed.
Lemma entry_like l : rres tt E (add_entry e a l) (add_entry e b l).
Proof. unfold add_entry. rewrite <- OW. destruct (o_words (a_opts a)); [|apply EC]. apply rres_same. intro u. apply batches_like. Qed.
Lemma flush_like x y : like x y -> rres tt like (flush e a x) (flush e b y).
Proof.
  intros (r & -> & H). unfold flush. cbn [x_chunks x_entries x_chunk x_states x_forms x_line x_prev x_page]. apply (rres_bind tt E); [apply entry_like|]. intros u v K. apply rres_ok.
  exists (r ++ v). split; [reflexivity|]. apply EA; assumption.
Qed.
Lemma like_push x y : like x y -> like (try_push_chunk x) (try_push_chunk y).
Proof. intros (r & -> & H). unfold try_push_chunk, push_chunk. cbn [x_chunk]. destruct (x_chunk x) eqn:C; exists r; (split; [|exact H]); cbn [x_chunk x_chunks x_states x_forms x_line x_prev x_page]; rewrite ?C; reflexivity. Qed.
Lemma like_put x y s : like x y -> like (put x s) (put y s).
Proof. intros (r & -> & H). exists r. split; [reflexivity|exact H]. Qed.
Lemma like_cur x y s : like x y -> like (set_current x s) (set_current y s).
Proof. intros (r & -> & H). exists r. split; [reflexivity|exact H]. Qed.
Lemma cur_like x y : like x y -> current y = current x. Proof. intros (r & -> & H). reflexivity. Qed.
Lemma try_like x y s : like x y -> rres tt like (try_add_entry e a x s) (try_add_entry e b y s).
Proof.
  intro L. unfold try_add_entry. assert (F : rres tt like (flush e a (try_push_chunk x)) (flush e b (try_push_chunk y))) by (apply flush_like, like_push, L). pose proof L as L0. destruct L as (r & -> & H).
  rewrite (cur_like _ _ L0). unfold distance. rewrite (cur_like _ _ L0). cbn [x_chunks x_chunk x_line x_prev] in *. rewrite <- OW.
  assert (M : rres tt like
    (if match x_line x with Some y => same_line (mf (trm (current x))) y | None => false end then
      if Qle_bool (wlen (current x)) (vlen e (vsub (origin (trm (current x))) (x_prev x)) + epsilon) then
        if o_words (a_opts a) || ltb (wlen (current x) * 6) (vlen e (vsub (origin (trm (current x))) (x_prev x)) + epsilon) then flush e a (try_push_chunk x)
        else match rev (x_chunk x), rev (map (@rev sstr) (x_chunks x)) with
          | p :: _, _ | [], (p :: _) :: _ => Ok (if ends_white p || begins_white s then x else put x (new_ss e [32] (ss_state p) [vlen e (vsub (origin (trm (current x))) (x_prev x))] [0]))
          | _, _ => UB end
      else Ok x else flush e a (try_push_chunk x))
    (if match x_line x with Some y => same_line (mf (trm (current x))) y | None => false end then
      if Qle_bool (wlen (current x)) (vlen e (vsub (origin (trm (current x))) (x_prev x)) + epsilon) then
        if o_words (a_opts a) || ltb (wlen (current x) * 6) (vlen e (vsub (origin (trm (current x))) (x_prev x)) + epsilon) then flush e b (try_push_chunk (mk_cx r (x_chunk x) (x_chunks x) (x_states x) (x_forms x) (x_line x) (x_prev x) (x_page x)))
        else match rev (x_chunk x), rev (map (@rev sstr) (x_chunks x)) with
          | p :: _, _ | [], (p :: _) :: _ => Ok (if ends_white p || begins_white s then mk_cx r (x_chunk x) (x_chunks x) (x_states x) (x_forms x) (x_line x) (x_prev x) (x_page x) else put (mk_cx r (x_chunk x) (x_chunks x) (x_states x) (x_forms x) (x_line x) (x_prev x) (x_page x)) (new_ss e [32] (ss_state p) [vlen e (vsub (origin (trm (current x))) (x_prev x))] [0]))
          | _, _ => UB end
      else Ok (mk_cx r (x_chunk x) (x_chunks x) (x_states x) (x_forms x) (x_line x) (x_prev x) (x_page x)) else flush e b (try_push_chunk (mk_cx r (x_chunk x) (x_chunks x) (x_states x) (x_forms x) (x_line x) (x_prev x) (x_page x))))).
  { destruct (match x_line x with Some y => same_line (mf (trm (current x))) y | None => false end); [|exact F]. destruct (Qle_bool _ _); [|exact L0]. destruct (_ || _); [exact F|].
    assert (P : forall p, rres tt like (Ok (if ends_white p || begins_white s then x else put x (new_ss e [32] (ss_state p) [vlen e (vsub (origin (trm (current x))) (x_prev x))] [0])))
      (Ok (if ends_white p || begins_white s then mk_cx r (x_chunk x) (x_chunks x) (x_states x) (x_forms x) (x_line x) (x_prev x) (x_page x) else put (mk_cx r (x_chunk x) (x_chunks x) (x_states x) (x_forms x) (x_line x) (x_prev x) (x_page x)) (new_ss e [32] (ss_state p) [vlen e (vsub (origin (trm (current x))) (x_prev x))] [0])))).
    { intro p. destruct (_ || _); [exact L0|apply rres_ok, like_put, L0]. }
    destruct (rev (x_chunk x)) as [|p q]; [|apply P]. destruct (rev (map (@rev sstr) (x_chunks x))) as [|[|p q] ?]; [exact Logic.I|exact Logic.I|apply P]. }
  destruct (x_chunks x), (x_chunk x); [exact L0|exact M|exact M|exact M].
Qed.
Lemma push_like x y s k : like x y -> rres tt like (push_string e a x s k) (push_string e b y s k).
Proof.
  intro L. unfold push_string. rewrite (cur_like x y L). eapply rres_bind.
  - apply try_like. destruct L as (r & -> & H). exists r. split; [reflexivity|exact H].
  - intros u v (r & -> & H). apply rres_ok. exists r. split; [|destruct k; exact H]. destruct k; reflexivity.
Qed.
Lemma show_like x y h s k : like x y -> rres tt like (show e a x h s k) (show e b y h s k).
Proof. intro L. unfold show. rewrite (cur_like x y L). destruct (decode e h s (current x)) as [[[[|c q] raw] pos]|]; [exact L|apply push_like, L|exact L]. Qed.
Lemma array_like l : forall x y, like x y -> rres tt like (show_array e a x l) (show_array e b y l).
Proof.
  induction l as [|o l IH]; intros x y L; cbn [show_array]; [exact L|]. pose proof (cur_like x y L) as CU.
  destruct o; try (destruct (real_of _); [rewrite CU; apply IH, like_cur, L|apply IH, L|apply IH, L|apply IH, L]).
  apply (rres_bind tt like); [apply show_like, L|]. intros u v K. apply IH, K.
Qed.
Lemma pop_like x y n : like x y -> rres tt like (pop_state x n) (pop_state y n).
Proof. intros (r & -> & H). unfold pop_state. cbn [x_states]. destruct (_ || _); [exact Logic.I|]. apply rres_ok. exists r. split; [reflexivity|exact H]. Qed.
Lemma oper_like x y o st : like x y -> rres tt like (on_operator e a x o st) (on_operator e b y o st).
Proof.
  intro L. unfold on_operator. rewrite (cur_like x y L). assert (CV : canvas y = canvas x) by (destruct L as (r & -> & _); reflexivity). rewrite CV.
  assert (SC : forall s, rres tt like (Ok (set_current x s)) (Ok (set_current y s))) by (intro s; apply like_cur, L).
  assert (NX : forall u v, like u v -> rres tt like (Ok (set_current u (tstar_operator e (current u)))) (Ok (set_current v (tstar_operator e (current v))))).
  { intros u v K. rewrite (cur_like u v K). apply like_cur, K. }
  repeat match goal with |- rres _ _ (match ?o with _ => _ end) _ => is_var o; destruct o end; try exact L;
    try (apply rres_same; intro); try (apply rres_same; intro); try apply SC; try (apply pop_like, L).
  all: try match goal with |- rres _ _ (match ?o with _ => _ end) _ => destruct o end; try exact Logic.I; try apply SC; try (apply show_like, L).
  all: try (apply (rres_bind tt like); [apply show_like|intros u v K; apply NX, K]; try exact L).
  all: try (apply rres_same; intro; apply rres_same; intro; apply (rres_bind tt like); [apply show_like, like_cur, L|intros u' v K; apply NX, K]).
  all: try (apply (rres_bind tt like); [apply array_like, L|intros u v K; apply like_push, K]).
  all: try (destruct L as (r & -> & H); exists r; split; [reflexivity|exact H]).
Qed.
Lemma content_like x y c : like x y -> rres tt like (on_content e a x c) (on_content e b y c).
Proof.
  intro L. unfold on_content. destruct (ct_type c); try exact L; try exact Logic.I.
  - destruct (Z.testbit (ct_warn c) 0); [exact L|apply oper_like, L].
  - destruct (ct_xobj c) as [[f []]|]; try exact L; try exact Logic.I. destruct L as (r & -> & H). exists r. split; [reflexivity|exact H].
  - assert (FE : x_forms y = x_forms x /\ x_states y = x_states x) by (destruct L as (r & -> & _); split; reflexivity). destruct FE as (-> & ->). destruct (x_forms x) as [|[f k] q]; [exact Logic.I|].
    apply (rres_bind tt like); [apply pop_like, L|]. intros u v (r & -> & H). exists r. split; [reflexivity|exact H].
Qed.
Lemma contents_like l : forall x y, like x y -> rres tt like (on_contents e a x l) (on_contents e b y l).
Proof. induction l as [|c l IH]; intros x y L; cbn [on_contents]; [exact L|]. apply (rres_bind tt like); [apply content_like, L|]. intros u v K. apply IH, K. Qed.
Lemma extract_like pg l : (o_sub (a_opts a) = true -> a_pattern a <> []) -> (o_sub (a_opts b) = true -> a_pattern b <> []) -> rres tt E (extract e a pg l) (extract e b pg l).
Proof.
  intros SA SB. unfold extract.
  assert (NA : o_sub (a_opts a) && match a_pattern a with [] => true | _ => false end = false).
  { destruct (o_sub (a_opts a)); [|reflexivity]. destruct (a_pattern a); [destruct (SA eq_refl); reflexivity|reflexivity]. }
  assert (NB : o_sub (a_opts b) && match a_pattern b with [] => true | _ => false end = false).
  { destruct (o_sub (a_opts b)); [|reflexivity]. destruct (a_pattern b); [destruct (SB eq_refl); reflexivity|reflexivity]. }
  rewrite NA, NB. apply (rres_bind tt like).
  - apply contents_like. exists []. split; [reflexivity|exact EN].
  - intros u v L. apply (rres_bind tt like); [|intros u' v' (r & -> & H); exact H]. assert (CE : x_chunks v = x_chunks u) by (destruct L as (r & -> & _); reflexivity). rewrite CE. destruct (x_chunks u); [exact L|apply flush_like, L].
Qed.
End Runs.

(** ** Texts *)
Lemma lower_iff x y : lower x = lower y <-> same_letter x y.
Proof. unfold lower, same_letter. destruct (65 <=? x) eqn:A, (x <=? 90) eqn:B, (65 <=? y) eqn:C, (y <=? 90) eqn:D; cbn [andb]; lia. Qed.
Definition low (fold : bool) (t : list Z) : list Z := if fold then map lower t else t.
Lemma same_low fold s t : same_text fold s t <-> low fold s = low fold t.
Proof.
  destruct fold; cbn [same_text low]; [|reflexivity]. split.
  - induction 1 as [|x y s t L F IH]; [reflexivity|]. cbn [map]. rewrite IH. f_equal. apply lower_iff, L.
  - revert t. induction s as [|x s IH]; intros [|y t] H; try discriminate; constructor; cbn [map] in H; injection H as H1 H2; [apply lower_iff, H1|apply IH, H2].
Qed.
Lemma prefix_iff p : forall t, prefix p t = true <-> exists r, t = p ++ r.
Proof.
  induction p as [|x p IH]; intro t; cbn [prefix]; [split; [exists t; reflexivity|reflexivity]|]. destruct t as [|y t]; [split; [discriminate|intros (r & R); discriminate]|].
  rewrite andb_true_iff, IH, Z.eqb_eq. split; [intros (-> & r & ->); exists r; reflexivity|]. intros (r & R). injection R as -> ->. split; [reflexivity|]. exists r. reflexivity.
Qed.
Lemma find_some p t : forall n, find_text p t = Some n -> (exists u r, t = u ++ p ++ r /\ length u = n) /\ forall u r, t = u ++ p ++ r -> (n <= length u)%nat.
Proof.
  induction t as [|c t IH]; intros n H; cbn [find_text] in H.
  - destruct (prefix p []) eqn:P; [|discriminate]. injection H as <-. apply prefix_iff in P as (r & P). split; [exists [], r; auto|]. intros; lia.
  - destruct (prefix p (c :: t)) eqn:P.
    + injection H as <-. apply prefix_iff in P as (r & P). split; [exists [], r; auto|]. intros; lia.
    + destruct (find_text p t) as [m|] eqn:F; [|discriminate]. injection H as <-. destruct (IH m eq_refl) as ((u & r & -> & L) & MIN). split; [exists (c :: u), r; cbn [length app]; split; [reflexivity|lia]|].
      intros [|d u'] r' T; [|cbn [app length] in *; injection T as _ T; apply MIN in T; lia]. exfalso. assert (prefix p (c :: u ++ p ++ r) = true) by (apply prefix_iff; exists r'; exact T). congruence.
Qed.
Lemma find_none p t : find_text p t = None -> forall u r, t <> u ++ p ++ r.
Proof.
  induction t as [|c t IH]; intros H u r T; cbn [find_text] in H.
  - destruct (prefix p []) eqn:P; [discriminate|]. symmetry in T. apply app_eq_nil in T as (-> & T). assert (prefix p [] = true) by (apply prefix_iff; exists r; auto). congruence.
  - destruct (prefix p (c :: t)) eqn:P; [discriminate|]. destruct (find_text p t) as [m|] eqn:F; [discriminate|]. destruct u as [|d u]; [|injection T as _ T; apply (IH eq_refl u r T)].
    assert (prefix p (c :: t) = true) by (apply prefix_iff; exists r; exact T). congruence.
Qed.
Lemma low_app fold s t : low fold (s ++ t) = low fold s ++ low fold t. Proof. destruct fold; [apply map_app|reflexivity]. Qed.
Lemma low_len fold s : length (low fold s) = length s. Proof. destruct fold; [apply map_length|reflexivity]. Qed.
Lemma low_cut fold t u v : low fold t = u ++ v -> exists u' v', t = u' ++ v' /\ low fold u' = u /\ low fold v' = v.
Proof. destruct fold; cbn [low]; [intro H; apply map_eq_app in H as (u' & v' & -> & H1 & H2); eauto|intros ->; eauto]. Qed.
Lemma occurs_low fold p t n : occurs_at fold p t n <-> exists u r, low fold t = u ++ low fold p ++ r /\ length u = n.
Proof.
  split.
  - intros (x & y & z & -> & L & S). apply same_low in S. exists (low fold x), (low fold z). rewrite !low_app, S, low_len. auto.
  - intros (u & r & T & L). apply low_cut in T as (x & v & -> & <- & T). apply low_cut in T as (y & z & -> & S & <-). exists x, y, z. rewrite low_len in L. split; [reflexivity|]. split; [exact L|]. apply same_low, S.
Qed.
(** The first place of a text *)
Definition first_at (fold : bool) (p t : list Z) (n : nat) : Prop := occurs_at fold p t n /\ forall m, occurs_at fold p t m -> (n <= m)%nat.
Lemma find_low fold p t : match find_text (low fold p) (low fold t) with Some n => first_at fold p t n | None => forall n, ~ occurs_at fold p t n end.
Proof.
  destruct (find_text _ _) as [n|] eqn:F.
  - apply find_some in F as (A & M). split; [apply occurs_low, A|]. intros m O. apply occurs_low in O as (u & r & T & <-). apply (M u r T).
  - intros n O. apply occurs_low in O as (u & r & T & _). apply (find_none _ _ F u r T).
Qed.
Lemma delimiter_iff c : delimiter c = true <-> separates c.
Proof. unfold delimiter, separates. rewrite !orb_true_iff, !andb_true_iff, white_iff, !Z.leb_le. tauto. Qed.
Lemma delimiter_lower c : delimiter (lower c) = true <-> separates c.
Proof.
  rewrite delimiter_iff. unfold lower. destruct (65 <=? c) eqn:A, (c <=? 90) eqn:B; cbn [andb]; try tauto. apply Z.leb_le in A, B. unfold separates, blank. split; intro H; exfalso; lia.
Qed.
Lemma same_len fold s t : same_text fold s t -> length s = length t.
Proof. intro S. apply same_low in S. apply (f_equal (@length Z)) in S. rewrite !low_len in S. exact S. Qed.
Lemma whole_occurs fold p t n : whole_at fold p t n -> occurs_at fold p t n.
Proof. intros (x & y & z & T & L & S & _). exists x, y, z. auto. Qed.
Lemma edge_prev fold x : match rev (low fold x) with c :: _ => delimiter c | [] => true end = true <-> forall r c, x = r ++ [c] -> separates c.
Proof.
  destruct x as [|c x] using rev_ind; [destruct fold; (split; [intros _ r c X; destruct r; discriminate|reflexivity])|]. rewrite low_app, rev_app_distr. clear IHx.
  assert (D : match rev (low fold [c]) ++ rev (low fold x) with c :: _ => delimiter c | [] => true end = true <-> separates c) by (destruct fold; cbn [low map rev app]; [apply delimiter_lower|apply delimiter_iff]).
  rewrite D. split; [|intro H; apply (H x c eq_refl)]. intros H r d X. apply app_inj_tail in X as (_ & <-). exact H.
Qed.
Lemma edge_next fold z : match low fold z with c :: _ => delimiter c | [] => true end = true <-> forall c r, z = c :: r -> separates c.
Proof.
  destruct z as [|c z]; [destruct fold; (split; [discriminate|reflexivity])|].
  assert (D : match low fold (c :: z) with c :: _ => delimiter c | [] => true end = true <-> separates c) by (destruct fold; cbn [low map]; [apply delimiter_lower|apply delimiter_iff]).
  rewrite D. split; [|intro H; apply (H c z eq_refl)]. intros H d r X. injection X as <- _. exact H.
Qed.
Lemma cut_at {A} (x y z x' y' z' : list A) : x ++ y ++ z = x' ++ y' ++ z' -> length x = length x' -> length y = length y' -> x = x' /\ y = y' /\ z = z'.
Proof. intros H L M. destruct (app_eq_app _ _ _ _ H) as (q & [(-> & E)|(-> & E)]); rewrite app_length in L; destruct q; cbn [length] in L; try lia; rewrite app_nil_r in *; cbn [app] in E; (split; [reflexivity|]);
  [|symmetry in E]; destruct (app_eq_app _ _ _ _ E) as (q & [(-> & E')|(-> & E')]); rewrite app_length in M; destruct q; cbn [length] in M; try lia; rewrite ?app_nil_r in *; cbn [app] in E'; auto. Qed.
Lemma word_low fold p t : match word_at (low fold t) (low fold p) with
  | Some n => first_at fold p t n /\ whole_at fold p t n
  | None => forall n, whole_at fold p t n -> exists m, (m < n)%nat /\ occurs_at fold p t m end.
Proof.
  unfold word_at. pose proof (find_low fold p t) as F. destruct (find_text _ _) as [n|]; [|intros n W; destruct (F n (whole_occurs _ _ _ _ W))].
  pose proof F as F0. destruct F as ((x & y & z & T & L & S) & MIN). pose proof (same_len _ _ _ S) as SL.
  assert (A : firstn n (low fold t) = low fold x) by (rewrite T, !low_app, firstn_app, low_len, L, Nat.sub_diag; cbn [firstn]; rewrite app_nil_r; apply firstn_all2; rewrite low_len; lia).
  assert (B : skipn (n + length (low fold p)) (low fold t) = low fold z).
  { rewrite T, app_assoc, !low_app. rewrite skipn_app. rewrite skipn_all2 by (rewrite app_length, !low_len; lia). rewrite app_length, !low_len. replace (n + length p - (length x + length y))%nat with 0%nat by lia. reflexivity. }
  rewrite A, B. destruct (_ && _) eqn:K.
  - split; [exact F0|]. apply andb_true_iff in K as (K1 & K2). exists x, y, z. split; [exact T|]. split; [exact L|]. split; [exact S|]. split; [apply (edge_prev fold), K1|apply (edge_next fold), K2].
  - intros k W. pose proof (MIN k (whole_occurs _ _ _ _ W)) as LE. exists n. split; [|exact (proj1 F0)]. destruct (Nat.eq_dec n k) as [->|]; [exfalso|lia].
    destruct W as (x' & y' & z' & T' & L' & S' & W1 & W2). rewrite T in T'. apply cut_at in T' as (<- & <- & <-); [|lia|rewrite (same_len _ _ _ S'); lia].
    apply (edge_prev fold) in W1. apply (edge_next fold) in W2. rewrite W1, W2 in K. discriminate.
Qed.

(** ** Searches *)
Definition base (a : args) : args :=
  let o := a_opts a in mk_args [] (mk_op (o_case o) (o_trim o) (o_words o) (o_whole o) (o_regex o) (o_raw o) false) None (a_rotation a).
Lemma qle_iff x y : Qle_bool x y = true <-> (x <= y)%Q. Proof. apply Qle_bool_iff. Qed.
Lemma contains_iff r x y : contains r x y = true <-> within (Some r) x y.
Proof. unfold contains, within. rewrite !andb_true_iff, !qle_iff. tauto. Qed.
Lemma picked_app K D l1 l2 r1 r2 : picked K D l1 r1 -> picked K D l2 r2 -> picked K D (l1 ++ l2) (r1 ++ r2).
Proof. intros H1 H2. induction H1; cbn [app]; [exact H2|constructor; assumption|constructor; assumption]. Qed.
Section Chunk.
Variable e : env.
Variable a : args.
Hypothesis CT : a_clip a = None \/ o_raw (a_opts a) = true \/ a_rotation a = None.
(** [W n]: a part of the text at [n] is taken, or all of it *)
Variable tt : bool.
Variable take : list Z -> option nat -> Prop.
Variable leave : list Z -> Prop.
Hypothesis MT : a_pattern a <> [] -> forall t, match matches e a t with Some k => take t k /\ (k <> None -> tt = false) | None => leave t end.
Hypothesis PT : a_pattern a = [] -> forall t, take t None.
Definition taken (x y : entry) : Prop := within (a_clip a) (en_x x) (en_y x) /\ exists k, take (en_text x) k /\
  match k with None => y = x | Some n => en_text y = firstn (length (a_pattern a)) (skipn n (en_text x)) end.
Definition left_out (x : entry) : Prop := ~ within (a_clip a) (en_x x) (en_y x) \/ a_pattern a <> [] /\ leave (en_text x).
Lemma chunk_like l : rres tt (picked taken left_out) (add_entry_chunk e (base a) l) (add_entry_chunk e a l).
Proof.
  unfold add_entry_chunk, base. cbn [a_opts a_pattern a_clip a_rotation o_trim o_raw].
  destruct (if o_trim (a_opts a) then trim e l else l) as [|[|first c] q]; [destruct (o_trim (a_opts a)); [constructor|exact Logic.I]|exact Logic.I|].
  unfold ss_at, origin. cbn [concat app fst snd]. match goal with |- context [text_of ?x] => set (TX := text_of x); clearbody TX end. destruct (addresses 0 0 (first :: c ++ concat q)) as [pos adr]. cbn [bind].
  destruct (compute_length e (first :: c ++ concat q) adr 0 (Z.of_nat (length adr) - 1)) as [w| | |] eqn:CW; cbn [bind]; try exact Logic.I.
  set (P := match a_rotation a with Some rot => if o_raw (a_opts a) then (me (trm (ss_state first)), mf (trm (ss_state first))) else image rot (me (trm (ss_state first)), mf (trm (ss_state first))) | None => (me (trm (ss_state first)), mf (trm (ss_state first))) end).
  assert (PC : a_clip a <> None -> P = (me (trm (ss_state first)), mf (trm (ss_state first)))).
  { intro N. unfold P. destruct CT as [C|[C|C]]; [congruence|rewrite C; destruct (a_rotation a); reflexivity|rewrite C; reflexivity]. }
  assert (PE : forall m : list Z * Z * Z * matrix, m = m) by reflexivity. clear PE.
  assert (WI : (match a_clip a with Some r => negb (contains r (me (trm (ss_state first))) (mf (trm (ss_state first)))) | None => false end) = true -> ~ within (a_clip a) (fst P) (snd P)).
  { destruct (a_clip a) as [r|]; [|discriminate]. rewrite PC by discriminate. cbn [fst snd]. rewrite negb_true_iff. intros C WW. apply contains_iff in WW. congruence. }
  assert (WO : (match a_clip a with Some r => negb (contains r (me (trm (ss_state first))) (mf (trm (ss_state first)))) | None => false end) = false -> within (a_clip a) (fst P) (snd P)).
  { destruct (a_clip a) as [r|]; [|intros _; exact Logic.I]. rewrite PC by discriminate. cbn [fst snd]. rewrite negb_false_iff. apply contains_iff. }
  assert (SURJ : forall t w, (let (x, y) := P in Ok [mk_entry t x y w]) = Ok [mk_entry t (fst P) (snd P) w]) by (intros; destruct P; reflexivity). rewrite SURJ.
  destruct (match a_clip a with Some r => _ | None => false end) eqn:CL.
  { apply PkLeave; [|constructor]. left. cbn [en_x en_y]. apply WI. reflexivity. }
  specialize (WO eq_refl). clear WI PC.
  assert (KEEP : take (TX) None -> rres tt (picked taken left_out) (Ok [mk_entry (TX) (fst P) (snd P) w]) (Ok [mk_entry (TX) (fst P) (snd P) w])).
  { intro T. apply PkTake; [|constructor]. split; [exact WO|]. exists None. auto. }
  destruct (a_pattern a) as [|p0 p] eqn:PAT.
  { cbn [bind]. rewrite CW. cbn [bind]. rewrite SURJ. apply KEEP, PT. reflexivity. }
  rewrite <- PAT in *. specialize (MT ltac:(congruence) (TX)).
  destruct (matches e a (TX)) as [[k|]|].
  - destruct MT as (T & TT). specialize (TT ltac:(discriminate)).
    destruct (indices pos (Z.of_nat k) (Z.of_nat (k + length (a_pattern a)))) as [i j].
    match goal with |- context [bind ?rr _] => set (r := rr) end. destruct r as [[[[[u i'] j'] m]|]| | |] eqn:R; cbn [bind]; try exact TT.
    + destruct (compute_length e _ adr i' (j' - 1)); cbn [bind]; try exact TT. clearbody P. match goal with |- rres _ _ _ (let (x, y) := ?z in _) => destruct z as [x y] end. apply PkTake; [|constructor].
      split; [exact WO|]. exists (Some k). split; [exact T|]. cbn [en_text]. assert (UE : u = firstn (length (a_pattern a)) (skipn k (TX))).
      { unfold r in R. destruct (i =? 0); [congruence|]. destruct (compute_length e _ adr 0 (i - 1)); cbn [bind] in R; congruence. }
      exact UE.
    + exfalso. unfold r in R. destruct (i =? 0); [congruence|]. destruct (compute_length e _ adr 0 (i - 1)); cbn [bind] in R; congruence.
  - cbn [bind]. rewrite CW. cbn [bind]. rewrite SURJ. apply KEEP, MT.
  - apply PkLeave; [|constructor]. right. cbn [en_text]. split; [congruence|exact MT].
Qed.
Lemma search_like pg l : (o_sub (a_opts a) = true -> a_pattern a <> []) -> rres tt (picked taken left_out) (extract e (base a) pg l) (extract e a pg l).
Proof. intro SA. apply extract_like; [constructor|apply picked_app|reflexivity|apply chunk_like|discriminate|exact SA]. Qed.
End Chunk.
(** ** The kinds of searches *)
Lemma picked_impl (K K' : entry -> entry -> Prop) (D D' : entry -> Prop) l r : (forall x y, K x y -> K' x y) -> (forall x, D x -> D' x) -> picked K D l r -> picked K' D' l r.
Proof. intros HK HD. induction 1; constructor; auto. Qed.
Lemma base_same p o c t : o_sub o = false -> base (mk_args p o c t) = mk_args [] o None t.
Proof. intro H. unfold base. cbn [a_opts a_rotation]. destruct o as [x1 x2 x3 x4 x5 x6 x7]. cbn [o_sub o_case o_trim o_words o_whole o_regex o_raw] in *. rewrite H. reflexivity. Qed.
Lemma beq_low fold s t : beq (low fold s) (low fold t) = true <-> same_text fold s t.
Proof. rewrite beq_eq. symmetry. apply same_low. Qed.
Lemma find_wanted fold p t : match find_text (low fold p) (low fold t) with Some _ => true | None => false end = true <-> exists n, occurs_at fold p t n.
Proof. pose proof (find_low fold p t) as F. destruct (find_text _ _) as [n|]; split; intro H; try reflexivity; try discriminate; [exists n; apply F|destruct H as (n & N); destruct (F n N)]. Qed.
Lemma search_plain e p o clip turn pg l r0 : o_sub o = false -> o_regex o = false -> clip = None \/ o_raw o = true \/ turn = None ->
  extract e (mk_args [] o None turn) pg l = Ok r0 ->
  exists r, extract e (mk_args p o clip turn) pg l = Ok r /\
    picked (fun x y => y = x /\ within clip (en_x x) (en_y x) /\ wanted p (o_case o) (o_whole o) (en_text x))
           (fun x => ~ (within clip (en_x x) (en_y x) /\ wanted p (o_case o) (o_whole o) (en_text x))) r0 r.
Proof.
  intros OS OR CT E. set (a := mk_args p o clip turn).
  pose proof (search_like e a CT true (fun t k => k = None /\ wanted p (o_case o) (o_whole o) t) (fun t => ~ wanted p (o_case o) (o_whole o) t)) as S.
  assert (M : a_pattern a <> [] -> forall t, match matches e a t with Some k => (k = None /\ wanted p (o_case o) (o_whole o) t) /\ (k <> None -> true = false) | None => ~ wanted p (o_case o) (o_whole o) t end).
  { intros N t. unfold matches, a. cbn [a_pattern a_opts]. rewrite OR, OS. cbn [a_pattern a] in N. unfold wanted. fold (low (o_case o) t). fold (low (o_case o) p).
    destruct (o_whole o).
    - destruct (beq _ _) eqn:B; [|intros [X|X]; [auto|apply beq_low in X; congruence]]. split; [split; [reflexivity|right; apply beq_low, B]|congruence].
    - pose proof (find_wanted (o_case o) p t) as F. destruct (match find_text _ _ with Some _ => true | None => false end); [|intros [X|X]; [auto|apply F in X; discriminate]].
      split; [split; [reflexivity|right; apply F; reflexivity]|congruence]. }
  specialize (S M). specialize (S (fun N t => conj eq_refl (or_introl N)) pg l). cbn [a a_opts] in S. rewrite OS in S. specialize (S ltac:(discriminate)).
  change (base a) with (base (mk_args p o clip turn)) in S. rewrite (base_same p o clip turn OS), E in S. unfold rres in S. destruct (extract e a pg l) as [r| | |]; try discriminate. exists r. split; [reflexivity|].
  eapply picked_impl; [| |exact S].
  - intros x y (W & k & (-> & T) & Y). auto.
  - intros x [W|(_ & W)] (W1 & W2); auto.
Qed.
Lemma search_regex e p o clip turn pg l r0 : o_sub o = false -> o_regex o = true -> clip = None \/ o_raw o = true \/ turn = None ->
  extract e (mk_args [] o None turn) pg l = Ok r0 ->
  exists r, extract e (mk_args p o clip turn) pg l = Ok r /\
    picked (fun x y => y = x /\ within clip (en_x x) (en_y x) /\ (p = [] \/ e_regex e (o_case o) p (en_text x) = true))
           (fun x => ~ (within clip (en_x x) (en_y x) /\ (p = [] \/ e_regex e (o_case o) p (en_text x) = true))) r0 r.
Proof.
  intros OS OR CT E. set (a := mk_args p o clip turn).
  pose proof (search_like e a CT true (fun t k => k = None /\ (p = [] \/ e_regex e (o_case o) p t = true)) (fun t => ~ (p = [] \/ e_regex e (o_case o) p t = true))) as S.
  assert (M : a_pattern a <> [] -> forall t, match matches e a t with Some k => (k = None /\ (p = [] \/ e_regex e (o_case o) p t = true)) /\ (k <> None -> true = false) | None => ~ (p = [] \/ e_regex e (o_case o) p t = true) end).
  { intros N t. unfold matches, a. cbn [a_pattern a_opts]. rewrite OR. cbn [a_pattern a] in N. destruct (e_regex e (o_case o) p t); [split; [auto|congruence]|]. intros [X|X]; [auto|discriminate]. }
  specialize (S M (fun N t => conj eq_refl (or_introl N)) pg l). cbn [a a_opts] in S. rewrite OS in S. specialize (S ltac:(discriminate)).
  change (base a) with (base (mk_args p o clip turn)) in S. rewrite (base_same p o clip turn OS), E in S. unfold rres in S. destruct (extract e a pg l) as [r| | |]; try discriminate. exists r. split; [reflexivity|].
  eapply picked_impl; [| |exact S].
  - intros x y (W & k & (-> & T) & Y). auto.
  - intros x [W|(_ & W)] (W1 & W2); auto.
Qed.
(** Parts of texts *)
Lemma part_text fold p t n : occurs_at fold p t n -> same_text fold (firstn (length p) (skipn n t)) p.
Proof.
  intros (x & y & z & -> & L & S). pose proof (same_len _ _ _ S) as SL. rewrite skipn_app, skipn_all2 by lia. rewrite L, Nat.sub_diag. cbn [skipn app].
  rewrite firstn_app, <- SL, Nat.sub_diag, firstn_all. cbn [firstn]. rewrite app_nil_r. exact S.
Qed.
Lemma search_part e p o clip turn pg l r0 r : o_sub o = true -> o_regex o = false -> clip = None \/ o_raw o = true \/ turn = None ->
  extract e (mk_args [] (mk_op (o_case o) (o_trim o) (o_words o) (o_whole o) false (o_raw o) false) None turn) pg l = Ok r0 ->
  extract e (mk_args p o clip turn) pg l = Ok r ->
    picked (fun x y => within clip (en_x x) (en_y x) /\ exists n, first_at (o_case o) p (en_text x) n /\ (o_whole o = true -> whole_at (o_case o) p (en_text x) n) /\
             en_text y = firstn (length p) (skipn n (en_text x)) /\ same_text (o_case o) (en_text y) p)
           (fun x => ~ within clip (en_x x) (en_y x) \/
             if o_whole o then forall n, whole_at (o_case o) p (en_text x) n -> exists m, (m < n)%nat /\ occurs_at (o_case o) p (en_text x) m
             else forall n, ~ occurs_at (o_case o) p (en_text x) n) r0 r.
Proof.
  intros OS OR CT E0 E. set (a := mk_args p o clip turn).
  assert (PN : p <> []). { intros ->. unfold extract in E. cbn [a_opts a_pattern] in E. rewrite OS in E. discriminate. }
  pose proof (search_like e a CT false
    (fun t k => exists n, k = Some n /\ first_at (o_case o) p t n /\ (o_whole o = true -> whole_at (o_case o) p t n))
    (fun t => if o_whole o then forall n, whole_at (o_case o) p t n -> exists m, (m < n)%nat /\ occurs_at (o_case o) p t m else forall n, ~ occurs_at (o_case o) p t n)) as S.
  assert (M : a_pattern a <> [] -> forall t, match matches e a t with
    | Some k => (exists n, k = Some n /\ first_at (o_case o) p t n /\ (o_whole o = true -> whole_at (o_case o) p t n)) /\ (k <> None -> false = false)
    | None => if o_whole o then forall n, whole_at (o_case o) p t n -> exists m, (m < n)%nat /\ occurs_at (o_case o) p t m else forall n, ~ occurs_at (o_case o) p t n end).
  { intros _ t. unfold matches, a. cbn [a_pattern a_opts]. rewrite OR, OS. fold (low (o_case o) t). fold (low (o_case o) p). destruct (o_whole o).
    - pose proof (word_low (o_case o) p t) as F. destruct (word_at _ _) as [n|]; [|exact F]. split; [|reflexivity]. exists n. split; [reflexivity|]. split; [apply F|intros _; apply F].
    - pose proof (find_low (o_case o) p t) as F. destruct (find_text _ _) as [n|]; [|exact F]. split; [|reflexivity]. exists n. split; [reflexivity|]. split; [exact F|discriminate]. }
  specialize (S M (fun N => match PN N with end) pg l (fun _ => PN)).
  change (extract e a pg l) with (extract e (mk_args p o clip turn) pg l) in S. change (base a) with (mk_args [] (mk_op (o_case o) (o_trim o) (o_words o) (o_whole o) (o_regex o) (o_raw o) false) None turn) in S. rewrite OR, E0, E in S. cbn [rres] in S. eapply picked_impl; [| |exact S].
  - intros x y (W & k & (n & -> & F & WH) & Y). split; [exact W|]. exists n. split; [exact F|]. split; [exact WH|]. split; [exact Y|]. rewrite Y. apply part_text, F.
  - intros x [W|(_ & W)]; [left; exact W|right; exact W].
Qed.
