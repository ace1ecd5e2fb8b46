(** Extraction of text: words. *)
From Coq Require Import String QArith Lqa.
From Verif Require Import Base ChainProofs TokModel RectModel OpTables ContentsModel ExtractModel ExtractSpec ExtractProofs ExtractSimProofs ExtractGroupProofs ExtractTrimProofs.
Local Open Scope Z_scope.

(** ** Where the kind of the text changes a code begins *)
Lemma offs_head n codes : concat codes <> [] -> List.In n (offs n codes).
Proof. destruct codes as [|t codes]; cbn [concat offs]; [congruence|]. intros _. left. reflexivity. Qed.
Lemma boundary codes : forall n d p c t, Forall one_kind codes -> concat codes = d ++ p :: c :: t -> white p <> white c -> List.In (n + Z.of_nat (length d) + 1) (offs n codes).
Proof.
  induction codes as [|w codes IH]; intros n d p c t OK E NE; cbn [concat] in E; [destruct d; discriminate|]. inversion OK as [|? ? O1 O2]; subst.
  cbn [offs]. apply app_eq_app in E as (l & [(E1 & E2)|(E1 & E2)]).
  - destruct l as [|x l].
    + right. cbn [app] in E2. subst w. rewrite app_nil_r in *. apply (IH (n + Z.of_nat (length d)) [] p c t) in NE; [|exact O2|symmetry; exact E2].
      cbn [length] in NE. replace (n + Z.of_nat (length d) + Z.of_nat 0 + 1) with (n + Z.of_nat (length d) + 1) in NE by lia. exact NE.
    + cbn [app] in E2. injection E2 as <- E2. destruct l as [|y l].
      * cbn [app] in E2. right. replace (n + Z.of_nat (length w)) with (n + Z.of_nat (length d) + 1) by (rewrite E1, app_length; cbn [length]; lia). apply offs_head. rewrite <- E2. discriminate.
      * cbn [app] in E2. injection E2 as <- E2. exfalso. apply NE. destruct O1 as [O1|O1]; rewrite E1 in O1; apply Forall_app in O1 as (_ & O1);
        inversion O1 as [|? ? A1 A2]; subst; inversion A2 as [|? ? A3 _]; subst; [apply white_iff in A1, A3|apply white_false in A1, A3]; congruence.
  - right. subst d. apply (IH (n + Z.of_nat (length w)) l p c t) in NE; [|exact O2|exact E2]. rewrite app_length, Nat2Z.inj_add.
    replace (n + (Z.of_nat (length w) + Z.of_nat (length l)) + 1) with (n + Z.of_nat (length w) + Z.of_nat (length l) + 1) by lia. exact NE.
Qed.
(** ** The indices of a part *)
Lemma first_from_le pos lo : forall i k, nth_error pos k = Some lo -> i <= first_from pos lo i <= i + Z.of_nat k.
Proof.
  induction pos as [|p pos IH]; intros i [|k] H; cbn [nth_error first_from] in *; try discriminate.
  - injection H as ->. rewrite Z.leb_refl. lia.
  - destruct (lo <=? p); [lia|]. specialize (IH (i + 1) k H). lia.
Qed.
Lemma last_below_ge pos hi : forall i k p, nth_error pos k = Some p -> p < hi -> exists j, last_below pos hi i = Some j /\ (i + k < j <= i + length pos)%nat.
Proof.
  induction pos as [|q pos IH]; intros i [|k] p H L; cbn [nth_error last_below length] in *; try discriminate.
  - injection H as ->. destruct (last_below pos hi (S i)) as [j|] eqn:E; [exists j; split; [reflexivity|]; apply last_below_bound in E; lia|].
    replace (p <? hi) with true by (symmetry; apply Z.ltb_lt, L). exists (S i). split; [reflexivity|lia].
  - destruct (IH (S i) k p H L) as (j & E & J). rewrite E. exists j. split; [reflexivity|lia].
Qed.
Lemma cut_ok e s t st lo hi : sound s -> List.In lo (ss_pos s) -> lo < hi -> exists x st', cut e s t st lo hi = Ok (x, st') /\ ss_text x = t /\ sound x.
Proof.
  intros (A & B & C) IN L. apply In_nth_error in IN as (k & K). unfold cut, indices. pose proof (first_from_le (ss_pos s) lo 0 k K) as F.
  destruct (last_below_ge (ss_pos s) hi 0 k lo K L) as (j & -> & J). set (i := first_from (ss_pos s) lo 0) in *.
  replace (Z.of_nat j <? i) with false by (symmetry; apply Z.ltb_ge; lia). eexists; eexists; split; [reflexivity|]. unfold new_ss. cbn [ss_text]. split; [reflexivity|].
  unfold sound. cbn [ss_raw ss_len ss_pos]. rewrite !map_length. unfold slice. rewrite !firstn_length, !skipn_length, B. split; [reflexivity|]. split; [reflexivity|].
  intro X. apply (f_equal (@length Z)) in X. rewrite map_length, firstn_length, skipn_length in X. cbn [length] in X. lia.
Qed.
(** ** The pieces of a string *)
Definition solid (t : list Z) : Prop := t <> [] /\ Forall (fun c => ~ blank c) t.
Definition piece_ok (s : sstr) : Prop := sound s /\ (solid (ss_text s) \/ (ss_text s <> [] /\ Forall blank (ss_text s))).
Lemma kind_piece (b : bool) t : t <> [] -> Forall (fun c => white c = b) t -> solid t \/ (t <> [] /\ Forall blank t).
Proof.
  intros N F. destruct b.
  - right. split; [exact N|]. eapply Forall_impl; [|exact F]. intros c C. apply white_iff, C.
  - left. split; [exact N|]. eapply Forall_impl; [|exact F]. intros c C. apply white_false, C.
Qed.
Lemma split_ok e s codes : made s codes -> Forall one_kind codes -> forall t cur st d prev,
  ss_text s = d ++ rev cur ++ t -> (cur <> [] -> List.In (Z.of_nat (length d)) (ss_pos s) /\ Forall (fun c => white c = prev) cur) -> (cur = [] -> d = []) ->
  exists l, ExtractModel.split e s t cur st (Z.of_nat (length d)) (Z.of_nat (length d + length cur)) prev = Ok l /\ Forall piece_ok l /\ concat (map ss_text l) = rev cur ++ t.
Proof.
  intros M OK. pose proof (made_sound s codes M) as SO. destruct M as (MT & MP & _ & _ & NT). induction t as [|c t IH]; intros cur st d prev E HC HD; cbn [ExtractModel.split].
  - destruct cur as [|z cur]; [exists []; split; [reflexivity|]; split; [constructor|reflexivity]|].
    destruct (HC ltac:(discriminate)) as (IN & F).
    destruct (cut_ok e s (rev (z :: cur)) st (Z.of_nat (length d)) (Z.of_nat (length (ss_text s))) SO IN) as (x & st' & CU & TX & SX).
    { rewrite E, !app_length, rev_length. cbn [length]. lia. }
    rewrite CU. cbn [bind]. exists [x]. split; [reflexivity|]. rewrite app_nil_r. cbn [map concat]. rewrite app_nil_r, TX. split; [|reflexivity]. constructor; [|constructor].
    split; [exact SX|]. rewrite TX. apply (kind_piece prev). { intro X. apply (f_equal (@length Z)) in X. rewrite rev_length in X. discriminate. } apply Forall_rev, F.
  - destruct cur as [|z cur].
    + rewrite (HD eq_refl) in *. cbn [rev app length Nat.add] in *. destruct (IH [c] st [] (white c)) as (l & L & P & T).
      * exact E.
      * intros _. split; [rewrite MP; apply offs_head; rewrite <- MT, E; discriminate|constructor; [reflexivity|constructor]].
      * discriminate.
      * exists l. cbn [length Nat.add] in L. rewrite <- L. split; [reflexivity|]. split; [exact P|exact T].
    + destruct (HC ltac:(discriminate)) as (IN & F). destruct (Bool.eqb (white c) prev) eqn:EB.
      * apply eqb_prop in EB. destruct (IH (c :: z :: cur) st d (white c)) as (l & L & P & T).
        -- cbn [rev] in *. rewrite <- !app_assoc in *. cbn [app] in *. exact E.
        -- intros _. split; [exact IN|]. constructor; [reflexivity|]. rewrite EB. exact F.
        -- discriminate.
        -- exists l. replace (Z.of_nat (length d + length (z :: cur)) + 1) with (Z.of_nat (length d + length (c :: z :: cur))) by (cbn [length]; lia). rewrite L. split; [reflexivity|]. split; [exact P|].
           rewrite T. cbn [rev]. rewrite <- !app_assoc. reflexivity.
      * apply eqb_false_iff in EB.
        destruct (cut_ok e s (rev (z :: cur)) st (Z.of_nat (length d)) (Z.of_nat (length d + length (z :: cur))) SO IN) as (x & st' & CU & TX & SX). { cbn [length]; lia. }
        rewrite CU. cbn [bind]. destruct (IH [c] st' (d ++ rev (z :: cur)) (white c)) as (l & L & P & T).
        -- rewrite <- app_assoc. exact E.
        -- intros _. split; [|constructor; [reflexivity|constructor]]. rewrite MP. rewrite app_length, rev_length. cbn [length].
           replace (Z.of_nat (length d + S (length cur))) with (0 + Z.of_nat (length (d ++ rev cur)) + 1) by (rewrite app_length, rev_length; lia).
           apply (boundary codes 0 (d ++ rev cur) z c t OK).
           ++ rewrite <- MT, E. cbn [rev]. rewrite <- !app_assoc. reflexivity.
           ++ inversion F; subst. congruence.
        -- discriminate.
        -- rewrite app_length, rev_length in L. cbn [length] in L. cbn [length].
           replace (Z.of_nat (length d + S (length cur)) + 1) with (Z.of_nat (length d + S (length cur) + 1)) by lia. rewrite L. cbn [bind]. exists (x :: l). split; [reflexivity|].
           cbn [map concat]. rewrite T, TX. split; [|reflexivity]. constructor; [|exact P]. split; [exact SX|]. rewrite TX. apply (kind_piece prev).
           { intro X. apply (f_equal (@length Z)) in X. rewrite rev_length in X. discriminate. } apply Forall_rev, F.
Qed.
Lemma split_string_ok e s codes : made s codes -> Forall one_kind codes -> exists l, split_string e s = Ok l /\ Forall piece_ok l /\ concat (map ss_text l) = ss_text s.
Proof.
  intros M OK. unfold split_string. destruct (split_ok e s codes M OK (ss_text s) [] (ss_state s) [] true) as (l & L & P & T); [reflexivity|congruence|reflexivity|].
  exists l. split; [exact L|]. split; [exact P|exact T].
Qed.
(** ** Chunks of one kind *)
Definition solid_chunk (c : chunk) : Prop := c <> [] /\ Forall (fun s => sound s /\ solid (ss_text s)) c.
Definition blank_chunk (c : chunk) : Prop := c <> [] /\ Forall (fun s => sound s /\ ss_text s <> [] /\ Forall blank (ss_text s)) c.
Definition kind_of (b : bool) (s : sstr) : Prop := sound s /\ (if b then ss_text s <> [] /\ Forall blank (ss_text s) else solid (ss_text s)).
Lemma piece_kind s : piece_ok s -> kind_of (is_white s) s.
Proof.
  intros (S & K). split; [exact S|]. unfold is_white. destruct K as [(N & F)|(N & F)].
  - destruct (ss_text s) as [|c t]; [congruence|]. inversion F; subst. cbn [forallb]. rewrite (proj2 (white_false c)) by assumption. cbn [andb]. split; assumption.
  - replace (forallb white (ss_text s)) with true; [split; assumption|]. symmetry. apply forallb_forall. intros z Z. apply white_iff. rewrite Forall_forall in F. apply F, Z.
Qed.
Lemma group_ok_kinds l : forall cur prev, Forall piece_ok l -> Forall (kind_of prev) cur ->
  Forall (fun c => solid_chunk c \/ blank_chunk c) (group l cur prev) /\ concat (group l cur prev) = cur ++ l.
Proof.
  assert (KC : forall b c, c <> [] -> Forall (kind_of b) c -> solid_chunk c \/ blank_chunk c).
  { intros [] c N F; [right|left]; split; try exact N; eapply Forall_impl; [|exact F| |exact F]; intros s (A & B); split; assumption. }
  induction l as [|s l IH]; intros cur prev P F; cbn [group].
  - destruct cur as [|z cur]; [split; [constructor|reflexivity]|]. split; [|cbn [concat]; rewrite !app_nil_r; reflexivity]. constructor; [|constructor]. apply (KC prev); [discriminate|exact F].
  - inversion P as [|? ? P1 P2]; subst. apply piece_kind in P1. destruct cur as [|z cur].
    + destruct (IH [s] (is_white s) P2) as (A & B); [constructor; [exact P1|constructor]|]. split; [exact A|exact B].
    + destruct (Bool.eqb (is_white s) prev) eqn:EB.
      * apply eqb_prop in EB. destruct (IH ((z :: cur) ++ [s]) (is_white s) P2) as (A & B).
        { apply Forall_app. rewrite EB in *. split; [exact F|constructor; [exact P1|constructor]]. }
        split; [exact A|]. rewrite B, <- app_assoc. reflexivity.
      * destruct (IH [s] (is_white s) P2) as (A & B); [constructor; [exact P1|constructor]|]. split; [constructor; [apply (KC prev); [discriminate|exact F]|exact A]|]. cbn [concat]. rewrite B. reflexivity.
Qed.
Definition word_string (s : sstr) : Prop := exists codes, made s codes /\ Forall one_kind codes.
Lemma split_chunk_ok e c : Forall word_string c -> exists l, split_chunk e c = Ok l /\ Forall (fun c => solid_chunk c \/ blank_chunk c) l /\ text_of l = ctext c.
Proof.
  induction c as [|s c IH]; intro W; cbn [split_chunk]; [exists []; split; [reflexivity|]; split; [constructor|reflexivity]|]. inversion W as [|? ? (codes & M & OK) W2]; subst.
  destruct (split_string_ok e s codes M OK) as (l & L & P & T). destruct (IH W2) as (r & R & K & TR). rewrite L, R. cbn [bind].
  destruct (group_ok_kinds l [] true P) as (A & B); [constructor|]. eexists. split; [reflexivity|]. split; [apply Forall_app; split; assumption|].
  rewrite text_ctext in *. rewrite concat_app, ctext_app, B, TR. cbn [app]. unfold ctext at 1. rewrite T. reflexivity.
Qed.
(** ** Batches *)
Definition wordy (b : list chunk) (w : list Z) : Prop :=
  full b /\ Forall sound (concat b) /\ exists A, text_of b = A ++ w /\ Forall blank A /\ solid w.
Definition left_over (cur : list chunk) : list (list chunk) := match cur with [] => [] | _ => [cur] end.
Lemma solid_text c : solid_chunk c -> solid (ctext c) /\ Forall sound c.
Proof.
  intros (N & F). split; [|eapply Forall_impl; [|exact F]; intros s S; apply S]. destruct c as [|s c]; [congruence|]. split.
  - rewrite ctext_cons. inversion F as [|? ? (_ & NE & _) _]; subst. destruct (ss_text s); [congruence|discriminate].
  - clear N. induction F as [|u v (_ & _ & K) F IH]; [constructor|]. rewrite ctext_cons. apply Forall_app. split; assumption.
Qed.
Lemma blank_text c : blank_chunk c -> ctext c <> [] /\ Forall blank (ctext c) /\ Forall sound c.
Proof.
  intros (N & F). split; [|split; [|eapply Forall_impl; [|exact F]; intros s S; apply S]].
  - destruct c as [|s c]; [congruence|]. rewrite ctext_cons. inversion F as [|? ? (_ & NE & _) _]; subst. destruct (ss_text s); [congruence|discriminate].
  - clear N. induction F as [|u v (_ & _ & K) F IH]; [constructor|]. rewrite ctext_cons. apply Forall_app. split; assumption.
Qed.
Lemma white_of c : blank_chunk c -> white_chunk c = true.
Proof.
  intros (_ & F). unfold white_chunk. apply forallb_forall. intros s S. unfold is_white. apply forallb_forall. intros z Z. apply white_iff. rewrite Forall_forall in F.
  destruct (F s S) as (_ & _ & B). rewrite Forall_forall in B. apply B, Z.
Qed.
Lemma not_white_of c : solid_chunk c -> white_chunk c = false.
Proof.
  intros (N & F). destruct c as [|s c]; [congruence|]. inversion F as [|? ? (_ & NE & B) _]; subst. cbn [white_chunk forallb]. unfold is_white at 1. destruct (ss_text s) as [|z t]; [congruence|].
  inversion B; subst. cbn [forallb]. rewrite (proj2 (white_false z)) by assumption. reflexivity.
Qed.
Lemma words_skip t u l : Forall blank t -> words u l -> words (t ++ u) l.
Proof. induction 1; intro W; cbn [app]; [exact W|]. constructor; auto. Qed.
Lemma batches_words l : Forall (fun c => solid_chunk c \/ blank_chunk c) l -> forall cur ws w,
  ((cur = [] /\ w = [] /\ Forall blank_chunk ws) \/ (wordy cur w /\ ws = [])) ->
  exists vs, Forall2 wordy (fst (batches l cur ws) ++ left_over (fst (snd (batches l cur ws)))) vs /\ words (w ++ text_of l) vs.
Proof.
  induction 1 as [|c l K F IH]; intros cur ws w H; cbn [batches].
  - cbn [fst snd app]. destruct H as [(-> & -> & _)|(W & ->)].
    + exists []. split; constructor.
    + exists [w]. split.
      * destruct cur; [destruct W as ((N & _) & _); congruence|]. constructor; [exact W|constructor].
      * destruct W as (_ & _ & A & _ & _ & N & S). apply WWord; [exact N|exact S|left; reflexivity|constructor].
  - assert (TL : text_of (c :: l) = ctext c ++ text_of l) by (rewrite !text_ctext; cbn [concat]; apply ctext_app). rewrite TL. destruct K as [K|K].
    + rewrite (not_white_of c K). destruct (solid_text c K) as (S & SS). destruct (IH (cur ++ ws ++ [c]) [] (w ++ ctext c)) as (vs & V & WD).
      * right. split; [|reflexivity]. destruct H as [(-> & -> & B)|((FU & SC & A & T & BA & SW) & ->)].
        -- cbn [app]. split; [split|].
           ++ intro X. apply app_eq_nil in X as (_ & X). discriminate.
           ++ apply Forall_app. split; [eapply Forall_impl; [|exact B]; intros x X; apply X|constructor; [apply K|constructor]].
           ++ rewrite concat_app. cbn [concat]. rewrite app_nil_r. split.
              ** apply Forall_app. split; [|exact SS]. clear -B. induction B as [|x q X B IHB]; [constructor|]. cbn [concat]. apply Forall_app. split; [apply (blank_text x X)|exact IHB].
              ** exists (ctext (concat ws)). rewrite text_ctext, concat_app, ctext_app. cbn [concat]. rewrite app_nil_r. split; [reflexivity|]. split; [|exact S].
                 clear -B. induction B as [|x q X B IHB]; [constructor|]. cbn [concat]. rewrite ctext_app. apply Forall_app. split; [apply (blank_text x X)|exact IHB].
        -- cbn [app]. destruct FU as (NC & FC). split; [split|].
           ++ intro X. apply app_eq_nil in X as (_ & X). discriminate.
           ++ apply Forall_app. split; [exact FC|constructor; [apply K|constructor]].
           ++ rewrite concat_app. cbn [concat]. rewrite app_nil_r. split; [apply Forall_app; split; assumption|].
              exists A. rewrite text_ctext in *. rewrite concat_app, ctext_app, T. cbn [concat]. rewrite app_nil_r, app_assoc. split; [reflexivity|]. split; [exact BA|].
              destruct SW as (N1 & F1), S as (N2 & F2). split; [intro X; apply app_eq_nil in X as (_ & X); congruence|apply Forall_app; split; assumption].
      * exists vs. split; [exact V|]. rewrite <- app_assoc in WD. exact WD.
    + rewrite (white_of c K). destruct (blank_text c K) as (NE & B & SS). destruct H as [(-> & -> & BW)|(W & ->)].
      * destruct (IH [] (ws ++ [c]) []) as (vs & V & WD).
        { left. split; [reflexivity|]. split; [reflexivity|]. apply Forall_app. split; [exact BW|constructor; [exact K|constructor]]. }
        exists vs. split; [exact V|]. cbn [app]. apply words_skip; [exact B|exact WD].
      * destruct (IH [] [c] []) as (vs & V & WD). { left. split; [reflexivity|]. split; [reflexivity|]. constructor; [exact K|constructor]. }
        destruct cur as [|c0 cur]; [destruct W as ((N & _) & _); congruence|]. cbn [app] in *. destruct (batches l [] [c]) as [b r]. cbn [fst snd app] in *. exists (w :: vs). split; [constructor; assumption|].
        destruct W as (_ & _ & A & _ & _ & N & SO). apply WWord; [exact N|exact SO| |apply words_skip; [exact B|exact WD]].
        right. destruct (ctext c) as [|z t]; [congruence|]. inversion B; subst. exists z, (t ++ text_of l). auto.
Qed.
Lemma batches_app l1 : forall l2 cur ws, batches (l1 ++ l2) cur ws =
  (fst (batches l1 cur ws) ++ fst (batches l2 (fst (snd (batches l1 cur ws))) (snd (snd (batches l1 cur ws)))),
   snd (batches l2 (fst (snd (batches l1 cur ws))) (snd (snd (batches l1 cur ws))))).
Proof.
  induction l1 as [|c l1 IH]; intros l2 cur ws; cbn [batches app].
  - cbn [fst snd app]. destruct (batches l2 cur ws); reflexivity.
  - destruct (white_chunk c); [|apply IH]. destruct cur; [apply IH|]. rewrite IH. destruct (batches l1 [] (ws ++ [c])) as [b [x y]]. reflexivity.
Qed.
Lemma all_batches_ok e l : Forall word_string (concat l) -> exists k, Forall (fun c => solid_chunk c \/ blank_chunk c) k /\ text_of k = text_of l /\
  forall cur ws, all_batches e l cur ws = Ok (fst (batches k cur ws) ++ left_over (fst (snd (batches k cur ws)))).
Proof.
  induction l as [|c l IH]; intro W.
  - exists []. split; [constructor|]. split; [reflexivity|]. intros cur ws. reflexivity.
  - cbn [concat] in W. apply Forall_app in W as (W1 & W2). destruct (split_chunk_ok e c W1) as (k1 & K1 & F1 & T1). destruct (IH W2) as (k2 & F2 & T2 & B2).
    exists (k1 ++ k2). split; [apply Forall_app; split; assumption|]. split.
    + rewrite !text_ctext in *. rewrite concat_app, ctext_app. cbn [concat]. rewrite ctext_app, T1, T2. reflexivity.
    + intros cur ws. cbn [all_batches]. rewrite K1. cbn [bind]. rewrite batches_app. destruct (batches k1 cur ws) as [b [c1 w1]]. cbn [fst snd]. rewrite B2. cbn [bind]. rewrite app_assoc. reflexivity.
Qed.
(** ** The entries of words *)
Lemma lstrip_app A w : Forall blank A -> lstrip (A ++ w) = lstrip w.
Proof. induction 1 as [|c A B F IH]; cbn [app lstrip]; [reflexivity|]. rewrite (proj2 (white_iff c) B). exact IH. Qed.
Lemma rstrip_app w B : Forall blank B -> rstrip (w ++ B) = rstrip w.
Proof.
  intro F. induction w as [|c w IH]; cbn [app rstrip].
  - apply rstrip_nil. apply forallb_forall. intros z Z. apply white_iff. rewrite Forall_forall in F. apply F, Z.
  - rewrite IH. reflexivity.
Qed.
Lemma rstrip_id r c : ~ blank c -> rstrip (r ++ [c]) = r ++ [c].
Proof.
  intro N. induction r as [|z r IH]; cbn [app rstrip]; [rewrite (proj2 (white_false c) N); reflexivity|]. rewrite IH. destruct (r ++ [c]) eqn:E; [destruct r; discriminate|reflexivity].
Qed.
Lemma stripped_unique t u : stripped t u -> u = rstrip (lstrip t).
Proof.
  intros (A & B & -> & FA & FB & H). rewrite lstrip_app by exact FA. destruct H as [->|((c & r & E & N) & (r2 & c2 & E2 & N2))].
  - cbn [app]. rewrite <- (app_nil_r B), lstrip_app by exact FB. reflexivity.
  - assert (L : lstrip (u ++ B) = u ++ B). { rewrite E. cbn [app lstrip]. rewrite (proj2 (white_false c) N). reflexivity. }
    rewrite L, rstrip_app by exact FB. rewrite E2. symmetry. apply rstrip_id, N2.
Qed.
Lemma stripped_word A w u : Forall blank A -> solid w -> stripped (A ++ w) u -> u = w.
Proof.
  intros F (N & S) H. apply stripped_unique in H. rewrite H, lstrip_app by exact F. destruct w as [|z w]; [congruence|]. inversion S; subst.
  assert (L : lstrip (z :: w) = z :: w) by (cbn [lstrip]; rewrite (proj2 (white_false z)) by assumption; reflexivity). rewrite L.
  destruct (exists_last N) as (r & c & E). rewrite E in *. apply rstrip_id. rewrite Forall_forall in S. apply S, in_or_app. right. left. reflexivity.
Qed.
Lemma word_entry e a b w : a_pattern a = [] -> a_clip a = None -> o_trim (a_opts a) = true -> wordy b w -> exists en, add_entry_chunk e a b = Ok [en] /\ en_text en = w.
Proof.
  intros PA CL OT ((NB & FB) & S & A & T & BA & SW). destruct (trim_spec e b FB S) as [(W & _)|(L & TL & FU & SL & ST & NE)].
  - exfalso. rewrite T in W. apply Forall_app in W as (_ & W). destruct SW as (N & F). destruct w as [|z w]; [congruence|]. inversion W; inversion F; subst. contradiction.
  - assert (X : exists first strs, concat L = first :: strs).
    { destruct FU as (N & F). destruct L as [|[|s c] L]; [congruence|inversion F; congruence|]. eexists; eexists; reflexivity. }
    destruct X as (first & strs & X). destruct (chunk_entry e a b L first strs PA CL) as (len & E); [rewrite OT; exact TL|exact FU|exact X|exact SL|].
    rewrite E. eexists. split; [reflexivity|]. cbn [en_text]. rewrite T in ST. apply (stripped_word A w (text_of L) BA SW ST).
Qed.
Lemma words_entries e a l : a_pattern a = [] -> a_clip a = None -> o_trim (a_opts a) = true -> o_words (a_opts a) = true -> Forall word_string (concat l) ->
  exists en, add_entry e a l = Ok en /\ words (text_of l) (map en_text en).
Proof.
  intros PA CL OT OW W. unfold add_entry. rewrite OW. destruct (all_batches_ok e l W) as (k & F & T & B). rewrite B. cbn [bind].
  destruct (batches_words k F [] [] []) as (vs & V & WD); [left; split; [reflexivity|]; split; [reflexivity|constructor]|]. cbn [app] in WD. rewrite T in WD.
  assert (X : exists en, add_batches e a (fst (batches k [] []) ++ left_over (fst (snd (batches k [] [])))) = Ok en /\ map en_text en = vs).
  { clear WD. induction V as [|b w bs ws WB V IH]; cbn [add_batches]; [exists []; auto|]. destruct (word_entry e a b w PA CL OT WB) as (x & X & XT). destruct IH as (r & R & RT).
    rewrite X, R. cbn [bind]. exists ([x] ++ r). split; [reflexivity|]. cbn [app map]. rewrite XT, RT. reflexivity. }
  destruct X as (en & E & M). exists en. split; [exact E|]. rewrite M. exact WD.
Qed.
