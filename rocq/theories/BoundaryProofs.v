(** Token boundaries. *)
From Coq Require Import String.
From Verif Require Import Base TokModel BoundarySpec.
Local Open Scope Z_scope.

Lemma ws_white c : is_ws c = true <-> In c white_chars.
Proof. unfold is_ws, white_chars. cbn [In]. rewrite !orb_true_iff, !Z.eqb_eq. intuition congruence. Qed.
Lemma delim_in c : is_delim c = true <-> In c delim_chars.
Proof.
  unfold is_delim, delim_chars. change (bs "()<>[]{}/%") with [40; 41; 60; 62; 91; 93; 123; 125; 47; 37]. cbn [In].
  rewrite !orb_true_iff, !Z.eqb_eq. intuition congruence.
Qed.
Lemma regular_iff c : is_ws c || is_delim c = false <-> regular_char c.
Proof.
  unfold regular_char. rewrite <- ws_white, <- delim_in, orb_false_iff. split.
  - intros [-> ->]. split; discriminate.
  - intros [A B]. split; apply not_true_is_false; assumption.
Qed.
Lemma eol_iff c : (c =? 10) || (c =? 13) = true <-> eol_char c.
Proof. unfold eol_char. rewrite orb_true_iff, !Z.eqb_eq. reflexivity. Qed.
Lemma not_eol c : (c =? 10) || (c =? 13) = false <-> ~ eol_char c.
Proof. rewrite <- eol_iff. destruct ((c =? 10) || (c =? 13)); split; intro H; try discriminate; try reflexivity; try (exfalso; apply H; reflexivity). Qed.
Lemma eol_white c : eol_char c -> In c white_chars.
Proof. intros [-> | ->]; cbn; tauto. Qed.
Lemma percent_not_regular k : ends_token (37 :: k).
Proof. intros [_ H]. apply H. apply delim_in. reflexivity. Qed.

Lemma skip_comment_spec r : past_comment (37 :: r) (skip_comment r).
Proof.
  assert (G : (exists t e k, r = t ++ e :: k /\ Forall (fun c => ~ eol_char c) t /\ eol_char e /\ skip_comment r = e :: k) \/
              (Forall (fun c => ~ eol_char c) r /\ skip_comment r = [])).
  { induction r as [|c r IH]; [right; split; [constructor|reflexivity]|]. cbn [skip_comment].
    destruct ((c =? 10) || (c =? 13)) eqn:E.
    - left. exists [], c, r. split; [reflexivity|]. split; [constructor|]. split; [apply eol_iff; exact E|reflexivity].
    - apply not_eol in E. destruct IH as [(t & e & k & -> & F & He & Hs)|[F Hs]].
      + left. exists (c :: t), e, k. split; [reflexivity|]. split; [constructor; assumption|]. split; assumption.
      + right. split; [constructor; assumption|exact Hs]. }
  destruct G as [(t & e & k & -> & F & He & Hs)|[F Hs]]; rewrite Hs; [apply pc_eol|apply pc_end]; assumption.
Qed.

(** the rest of a literal token *)
Lemma lit_rest_spec room : forall inp t r, lit_rest room inp = (t, r) ->
  exists k, inp = t ++ k /\ Forall regular_char t /\ (length t <= room)%nat /\
    ((length t < room)%nat -> ends_token k /\ past_comment k r) /\ (length t = room -> r = k).
Proof.
  induction room as [|room IH]; intros inp t r H; cbn [lit_rest] in H.
  - injection H as <- <-. exists inp. split; [reflexivity|]. split; [constructor|]. split; [cbn; lia|]. split; [cbn; lia|reflexivity].
  - destruct inp as [|c inp].
    + injection H as <- <-. exists []. split; [reflexivity|]. split; [constructor|]. split; [cbn; lia|].
      split; [intros _; split; [exact I|apply pc_none; exact I]|discriminate].
    + destruct (Z.eqb_spec c 37) as [->|N].
      * injection H as <- <-. exists (37 :: inp). split; [reflexivity|]. split; [constructor|]. split; [cbn; lia|].
        split; [intros _; split; [apply percent_not_regular|apply skip_comment_spec]|discriminate].
      * destruct (is_ws c || is_delim c) eqn:E.
        -- injection H as <- <-. exists (c :: inp). split; [reflexivity|]. split; [constructor|]. split; [cbn; lia|].
           split; [|discriminate]. intros _. split.
           ++ intro R. apply regular_iff in R. congruence.
           ++ apply pc_none. destruct c as [|p|p]; try exact I.
              destruct (Pos.eq_dec p 37) as [->|]; [congruence|]. revert N n. clear. intros _ n.
              repeat (destruct p; try exact I; try congruence).
        -- apply regular_iff in E. destruct (lit_rest room inp) as [t' r'] eqn:L. injection H as <- <-.
           destruct (IH inp t' r' L) as (k & -> & F & Hl & H1 & H2). exists k. split; [reflexivity|].
           split; [constructor; assumption|]. cbn [length]. split; [lia|]. split; [intro; apply H1; lia|intro; apply H2; lia].
Qed.

(** Leading blanks *)
Definition tok_body (buf : nat) (inp : list Z) : option (token * list Z) :=
  match inp with
  | [] => None
  | c :: r =>
    if (c =? 60) || (c =? 62) then
      match r with
      | [] => Some ((TLit, [c]), [])
      | d :: r' =>
        if d =? c then Some ((if c =? 60 then TDLAng else TDRAng, [c; d]), r')
        else Some ((if c =? 60 then TLAng else TRAng, [c]), r)
      end
    else match token_delim c with
         | Some ty => Some ((ty, [c]), r)
         | None => let '(t, r') := lit_rest (Nat.pred buf) r in Some ((TLit, c :: t), r')
         end
  end.
Lemma tok_blank buf inp : forall cm, exists b,
  (cm = false -> (blank b /\ exists k, inp = b ++ k /\ tok_from buf false inp = tok_body buf k /\
     match k with [] => True | c :: _ => ~ In c white_chars /\ c <> 37 end) \/
     (only_blank inp /\ tok_from buf false inp = None)) /\
  (cm = true -> (exists t e, Forall (fun c => ~ eol_char c) t /\ eol_char e /\ blank b /\ exists k, inp = t ++ e :: b ++ k /\
     tok_from buf true inp = tok_body buf k /\ match k with [] => True | c :: _ => ~ In c white_chars /\ c <> 37 end) \/
     (tok_from buf true inp = None /\
       (Forall (fun c => ~ eol_char c) inp \/ exists t e r, Forall (fun c => ~ eol_char c) t /\ eol_char e /\ inp = t ++ e :: r /\ only_blank r))).
Proof.
  induction inp as [|c inp IH]; intro cm.
  - exists []. split; intros _.
    + left. split; [constructor|]. exists []. repeat split.
    + right. split; [reflexivity|]. left. constructor.
  - destruct cm.
    + (* inside a comment *)
      destruct ((c =? 10) || (c =? 13)) eqn:E.
      * destruct (IH false) as (b & H & _). specialize (H eq_refl). exists b. split; [discriminate|]. intros _.
        cbn [tok_from]. rewrite E. cbn [negb]. apply eol_iff in E. destruct H as [(Bb & k & -> & T & Hk)|[O T]].
        -- left. exists [], c. split; [constructor|]. split; [exact E|]. split; [exact Bb|]. exists k. split; [reflexivity|]. split; [exact T|exact Hk].
        -- right. split; [exact T|]. right. exists [], c, inp. split; [constructor|]. split; [exact E|]. split; [reflexivity|exact O].
      * destruct (IH true) as (b & _ & H). specialize (H eq_refl). exists b. split; [discriminate|]. intros _.
        cbn [tok_from]. rewrite E. cbn [negb]. apply not_eol in E. destruct H as [(t & e & Ft & He & Bb & k & -> & T & Hk)|(T & H)].
        -- left. exists (c :: t), e. split; [constructor; assumption|]. split; [exact He|]. split; [exact Bb|]. exists k.
           split; [reflexivity|]. split; [exact T|exact Hk].
        -- right. split; [exact T|]. destruct H as [H|(t & e & r & Ft & He & -> & O)].
           ++ left. constructor; assumption.
           ++ right. exists (c :: t), e, r. split; [constructor; assumption|]. split; [exact He|]. split; [reflexivity|exact O].
    + destruct (is_ws c) eqn:W.
      * destruct (IH false) as (b & H & _). specialize (H eq_refl). exists (c :: b). split; [|discriminate]. intros _.
        cbn [tok_from]. rewrite W. apply ws_white in W. destruct H as [(Bb & k & -> & T & Hk)|[O T]].
        -- left. split; [constructor; assumption|]. exists k. split; [reflexivity|]. split; [exact T|exact Hk].
        -- right. split; [|exact T]. destruct O as (b' & t & Bb & O). exists (c :: b'), t. split; [constructor; assumption|].
           destruct O as [-> | [-> F]]; [left; reflexivity|right; split; [reflexivity|exact F]].
      * destruct (Z.eqb_spec c 37) as [->|N].
        -- destruct (IH true) as (b & _ & H). specialize (H eq_refl). cbn [tok_from]. rewrite W.
           change (37 =? 37) with true. cbv iota.
           destruct H as [(t & e & Ft & He & Bb & k & -> & T & Hk)|(T & H)].
           ++ exists (37 :: t ++ e :: b). split; [|discriminate]. intros _. left.
              split; [apply blank_comment; assumption|]. exists k. split; [cbn [app]; rewrite <- app_assoc; reflexivity|]. split; [exact T|exact Hk].
           ++ exists []. split; [|discriminate]. intros _. right. split; [|exact T].
              destruct H as [H|(t & e & r & Ft & He & -> & O)].
              ** exists [], inp. split; [constructor|]. right. split; [reflexivity|exact H].
              ** destruct O as (b' & t' & Bb & O). exists (37 :: t ++ e :: b'), t'. split; [apply blank_comment; assumption|].
                 destruct O as [-> | [-> F]]; [left; reflexivity|right; split; [cbn [app]; rewrite <- app_assoc; reflexivity|exact F]].
        -- exists []. split; [|discriminate]. intros _. left. split; [constructor|]. exists (c :: inp). split; [reflexivity|].
           split.
           ++ cbn [tok_from]. rewrite W. replace (c =? 37) with false by lia. reflexivity.
           ++ split; [|exact N]. intro I. apply ws_white in I. congruence.
Qed.

Notation tokenat := (token_at TLit TLParen TRParen TLBrace TRBrace TLAng TRAng TDLAng TDRAng TLSq TRSq TSlash).

Lemma tok_body_spec buf c k : (1 <= buf)%nat -> ~ In c white_chars -> c <> 37 ->
  exists t rest, tok_body buf (c :: k) = Some (t, rest) /\ tokenat buf (c :: k) t rest.
Proof.
  intros Hb W N. cbn [tok_body]. destruct ((c =? 60) || (c =? 62)) eqn:A.
  - assert (Hc : c = 60 \/ c = 62) by lia. destruct k as [|d k].
    + eexists _, _. split; [reflexivity|]. apply ta_angle_end. destruct Hc as [-> | ->]; cbn; auto.
    + destruct (Z.eqb_spec d c) as [->|D]; eexists _, _; (split; [reflexivity|]).
      * apply ta_double. destruct Hc as [-> | ->]; cbn; auto.
      * apply ta_angle; [|exact D]. destruct Hc as [-> | ->]; cbn; auto.
  - destruct (token_delim c) as [ty|] eqn:D.
    + eexists _, _. split; [reflexivity|]. apply ta_single. unfold token_delim in D.
      repeat match type of D with (if ?x =? ?y then _ else _) = _ =>
        destruct (Z.eqb_spec x y) as [->|]; [injection D as <-; cbn; auto 10|] end. discriminate.
    + assert (R : regular_char c).
      { apply regular_iff. apply orb_false_iff. split; [apply not_true_is_false; rewrite ws_white; exact W|].
        unfold token_delim in D.
        repeat match type of D with (if ?x =? ?y then _ else _) = _ => destruct (Z.eqb_spec x y); [discriminate D|] end.
        unfold is_delim. lia. }
      destruct (lit_rest (Nat.pred buf) k) as [t r] eqn:L. destruct (lit_rest_spec _ _ _ _ L) as (k' & -> & F & Hl & H1 & H2).
      eexists _, _. split; [reflexivity|]. change (c :: t ++ k') with ((c :: t) ++ k').
      destruct (Nat.eq_dec (length t) (Nat.pred buf)) as [E|E].
      * rewrite (H2 E). apply ta_long; [constructor; assumption|]. cbn [length]. lia.
      * destruct (H1 ltac:(lia)). apply ta_regular; [discriminate|constructor; assumption|cbn [length]; lia|assumption|assumption].
Qed.

Lemma next_token_spec buf inp : (1 <= buf)%nat ->
  (only_blank inp /\ tok buf inp = None) \/
  exists b k t rest, blank b /\ inp = b ++ k /\ tokenat buf k t rest /\ tok buf inp = Some (t, rest).
Proof.
  intro Hb. unfold tok. destruct (tok_blank buf inp false) as (b & H & _). specialize (H eq_refl).
  destruct H as [(Bb & k & E & T & Hk)|H]; [|left; exact H]. destruct k as [|c k].
  - left. split; [|exact T]. exists b, []. split; [exact Bb|]. left. rewrite app_nil_r in E. exact E.
  - right. destruct Hk as [W N]. destruct (tok_body_spec buf c k Hb W N) as (t & rest & E1 & E2).
    exists b, (c :: k), t, rest. rewrite T. auto.
Qed.

(** leading blanks are skipped *)
Lemma comment_skip buf t e k : Forall (fun c => ~ eol_char c) t -> eol_char e -> tok_from buf true (t ++ e :: k) = tok_from buf false k.
Proof.
  intros F E. induction F as [|c t Hc F IH]; cbn [app tok_from].
  - apply eol_iff in E. rewrite E. reflexivity.
  - apply not_eol in Hc. rewrite Hc. exact IH.
Qed.
Lemma blank_skip buf b k : blank b -> tok buf (b ++ k) = tok buf k.
Proof.
  unfold tok. intro H. induction H as [|c b W H IH|t e b F E H IH]; [reflexivity| |].
  - cbn [app tok_from]. apply ws_white in W. rewrite W. exact IH.
  - cbn [app tok_from]. change (is_ws 37) with false. change (37 =? 37) with true. cbv iota.
    rewrite <- app_assoc. cbn [app]. rewrite comment_skip by assumption. exact IH.
Qed.
Lemma lit_rest_app t : forall room k, Forall regular_char t -> (length t <= room)%nat ->
  lit_rest room (t ++ k) = let '(a, r) := lit_rest (room - length t) k in (t ++ a, r).
Proof.
  induction t as [|c t IH]; intros room k F H.
  - cbn [app length]. rewrite Nat.sub_0_r. destruct (lit_rest room k). reflexivity.
  - destruct room as [|room]; [cbn in H; lia|]. pose proof (Forall_inv F) as R. pose proof R as R'. apply regular_iff in R'.
    cbn [app lit_rest length]. destruct (Z.eqb_spec c 37) as [->|]; [exfalso; destruct R as [_ R]; apply R, delim_in; reflexivity|].
    rewrite R'. rewrite IH by (try exact (Forall_inv_tail F); cbn in H; lia). cbn [Nat.sub].
    destruct (lit_rest (room - length t) k). reflexivity.
Qed.
Lemma tok_regular buf t k : t <> [] -> Forall regular_char t -> (length t <= buf)%nat ->
  tok buf (t ++ k) = let '(a, r) := lit_rest (buf - length t) k in Some ((TLit, t ++ a), r).
Proof.
  intros N F H. destruct t as [|c t]; [congruence|]. pose proof (Forall_inv F) as R. pose proof R as R'. apply regular_iff in R'.
  apply orb_false_iff in R'. destruct R' as [Rw Rd].
  assert (NC : forall x, is_delim x = true -> c <> x) by (intros x Hx ->; congruence).
  assert (T : tok buf ((c :: t) ++ k) = let '(t', r') := lit_rest (Nat.pred buf) (t ++ k) in Some ((TLit, c :: t'), r')).
  { unfold tok. cbn [app tok_from]. rewrite Rw.
    replace (c =? 37) with false by (pose proof (NC 37 eq_refl); lia).
    replace ((c =? 60) || (c =? 62)) with false by (pose proof (NC 60 eq_refl); pose proof (NC 62 eq_refl); lia).
    assert (D : token_delim c = None).
    { unfold token_delim.
      repeat match goal with |- (if c =? ?y then _ else _) = _ =>
        replace (c =? y) with false by (pose proof (NC y eq_refl); lia) end. reflexivity. }
    rewrite D. reflexivity. }
  rewrite T. cbn [length] in *. rewrite lit_rest_app by (try exact (Forall_inv_tail F); lia).
  replace (Nat.pred buf - length t)%nat with (buf - S (length t))%nat by lia.
  destruct (lit_rest (buf - S (length t)) k). reflexivity.
Qed.
Lemma lit_rest_stop room c k : In c white_chars -> lit_rest room (c :: k) = ([], c :: k).
Proof.
  intro W. destruct room; [reflexivity|]. cbn [lit_rest]. apply ws_white in W as W'. rewrite W'.
  destruct (Z.eqb_spec c 37) as [->|]; [discriminate W'|reflexivity].
Qed.

Lemma two_tokens buf b a w ws x k : blank b -> a <> [] -> Forall regular_char a -> (length a <= buf)%nat ->
  In w white_chars -> blank ws -> x <> [] -> Forall regular_char x -> (length x < buf)%nat -> ends_token k ->
  exists s1 rest, next_token buf (mk_tst [] (b ++ a ++ w :: ws ++ x ++ k)) = Some ((TLit, a), s1) /\
    next_token buf s1 = Some ((TLit, x), mk_tst [] rest) /\ past_comment k rest.
Proof.
  intros Hb Na Fa La Hw Hws Nx Fx Lx Hk.
  destruct (lit_rest (buf - length x) k) as [y rest] eqn:L.
  destruct (lit_rest_spec _ _ _ _ L) as (k' & E & Fy & _ & H1 & _).
  assert (Y : y = []).
  { destruct y as [|c y]; [reflexivity|]. exfalso. rewrite E in Hk. cbn [app ends_token] in Hk. apply Hk. exact (Forall_inv Fy). }
  subst y. cbn [app length] in *. subst k'. destruct (H1 ltac:(lia)) as [_ PC].
  exists (mk_tst [] (w :: ws ++ x ++ k)), rest. unfold next_token. cbn [tq tin]. split; [|split; [|exact PC]].
  - rewrite blank_skip by exact Hb. rewrite tok_regular by assumption. rewrite lit_rest_stop by exact Hw. rewrite app_nil_r. reflexivity.
  - change (w :: ws ++ x ++ k) with ((w :: ws) ++ x ++ k). rewrite blank_skip by (apply blank_white; assumption).
    rewrite tok_regular by (try assumption; lia). rewrite L, app_nil_r. reflexivity.
Qed.

Lemma long_token_refuted buf : (1 <= buf)%nat -> exists t, Forall regular_char t /\ (length t = buf + 1)%nat /\
  tok buf t = Some ((TLit, firstn buf t), skipn buf t).
Proof.
  intro H. exists (repeat 97 (buf + 1)). split.
  { apply Forall_forall. intros c I. apply repeat_spec in I. subst c. apply regular_iff. reflexivity. }
  split; [apply repeat_length|]. rewrite repeat_app.
  rewrite tok_regular.
  - rewrite repeat_length, Nat.sub_diag. cbn [lit_rest]. rewrite app_nil_r.
    rewrite firstn_app, skipn_app, !repeat_length, Nat.sub_diag. cbn [firstn skipn]. rewrite app_nil_r.
    rewrite firstn_all2 by (rewrite repeat_length; lia). rewrite skipn_all2 by (rewrite repeat_length; lia). reflexivity.
  - destruct buf; [lia|discriminate].
  - apply Forall_forall. intros c I. apply repeat_spec in I. subst c. apply regular_iff. reflexivity.
  - rewrite repeat_length. lia.
Qed.
Lemma angle_end_refuted : tok 4095 [62] = Some ((TLit, [62]), []) /\ tok 4095 [62; 32] = Some ((TRAng, [62]), [32]).
Proof. split; vm_compute; reflexivity. Qed.
