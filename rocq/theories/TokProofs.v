(** Lemmas about the tokenizer. *)
From Coq Require Import String.
From Verif Require Import Base TokModel WriteModel.
Local Open Scope Z_scope.

(** Text after which a literal token ends without a comment being skipped. *)
Definition stops (k : list Z) : Prop :=
  match k with
  | [] => True
  | c :: r => is_ws c = true \/ (is_delim c = true /\ c <> 37 /\ (r = [] -> c <> 60 /\ c <> 62))
  end.

Lemma is_ws_delim c : is_ws c = true -> is_delim c = false.
Proof.
  unfold is_ws, is_delim. intro H.
  repeat (apply orb_true_iff in H; destruct H as [H|H]); apply Z.eqb_eq in H; subst; reflexivity.
Qed.

Lemma regular_spec c : is_regular c = true -> is_ws c = false /\ is_delim c = false.
Proof. unfold is_regular. intro H. apply andb_true_iff in H. destruct H as [H1 H2].
  apply negb_true_iff in H1. apply negb_true_iff in H2. auto. Qed.

Lemma regular_not c : is_regular c = true ->
  (c =? 37) = false /\ (c =? 60) = false /\ (c =? 62) = false /\ token_delim c = None.
Proof.
  intro H. apply regular_spec in H. destruct H as [_ H].
  unfold is_delim in H. repeat (apply orb_false_iff in H; destruct H as [H ?]).
  repeat split; auto. unfold token_delim.
  repeat match goal with E : (c =? ?x) = false |- _ => rewrite E; clear E end. reflexivity.
Qed.

Lemma lit_rest_regular t : forall room k, Forall (fun c => is_regular c = true) t -> stops k ->
  (length t <= room)%nat -> (length t = room -> True) ->
  lit_rest room (t ++ k) = (t, k).
Proof.
  induction t as [|c t IH]; intros room k Ht Hk Hl _.
  - cbn [app]. destruct room; [reflexivity|]. destruct k as [|c k]; [reflexivity|].
    cbn [lit_rest]. cbn [stops] in Hk. destruct Hk as [Hk|(Hk & Hn & _)].
    + destruct (c =? 37) eqn:E.
      * apply Z.eqb_eq in E. subst. discriminate Hk.
      * rewrite Hk. reflexivity.
    + apply Z.eqb_neq in Hn. rewrite Hn, Hk, orb_true_r. reflexivity.
  - inversion Ht; subst. destruct room; [cbn [length] in Hl; lia|].
    cbn [app lit_rest]. destruct (regular_spec _ H1) as [Ha Hb]. destruct (regular_not _ H1) as [Hc _].
    rewrite Hc, Ha, Hb. cbn [orb]. rewrite IH; auto. cbn [length] in Hl. lia.
Qed.

(** A run of regular characters followed by a separator is one literal token. *)
Lemma tok_lit buf t k : t <> [] -> Forall (fun c => is_regular c = true) t -> stops k ->
  (length t <= buf)%nat -> tok buf (t ++ k) = Some ((TLit, t), k).
Proof.
  intros Hne Ht Hk Hl. destruct t as [|c t]; [congruence|]. inversion Ht; subst.
  unfold tok. cbn [app tok_from]. destruct (regular_spec _ H1) as [Ha Hb].
  destruct (regular_not _ H1) as (Hc & Hd & He & Hf).
  rewrite Ha, Hc, Hd, He, Hf. cbn [orb]. cbn [length] in Hl.
  rewrite lit_rest_regular; auto. lia.
Qed.

Lemma tok_ws buf c r : is_ws c = true -> tok buf (c :: r) = tok buf r.
Proof. intro H. unfold tok. cbn [tok_from]. rewrite H. reflexivity. Qed.

Lemma tok_delim1 buf c ty r : token_delim c = Some ty -> tok buf (c :: r) = Some ((ty, [c]), r).
Proof.
  intro H. unfold tok. cbn [tok_from].
  assert (is_ws c = false /\ (c =? 37) = false /\ (c =? 60) = false /\ (c =? 62) = false) as (H1 & H2 & H3 & H4).
  { unfold token_delim in H.
    repeat match type of H with (if ?b then _ else _) = _ =>
      let E := fresh in destruct b eqn:E; [apply Z.eqb_eq in E; subst c; repeat split; reflexivity|] end.
    discriminate. }
  rewrite H1, H2, H3, H4, H. reflexivity.
Qed.

(** * Size of what is left *)
Lemma skip_comment_len l : (length (skip_comment l) <= length l)%nat.
Proof. induction l as [|c l IH]; cbn [skip_comment]; [lia|]. destruct (_ || _); cbn [length] in *; lia. Qed.

Lemma lit_rest_len room : forall l t r, lit_rest room l = (t, r) ->
  (length t + length r <= length l /\ length t <= room)%nat.
Proof.
  induction room as [|room IH]; intros l t r H; cbn [lit_rest] in H.
  - inversion H; subst. cbn [length]. lia.
  - destruct l as [|c l]; [inversion H; subst; cbn [length]; lia|].
    destruct (c =? 37).
    { inversion H; subst. pose proof (skip_comment_len l). cbn [length]. lia. }
    destruct (is_ws c || is_delim c).
    { inversion H; subst. cbn [length]. lia. }
    destruct (lit_rest room l) as [t' r'] eqn:E. inversion H; subst.
    apply IH in E. cbn [length]. lia.
Qed.

Lemma tok_from_len buf l : forall b ty t r, tok_from buf b l = Some ((ty, t), r) ->
  (length t + length r <= length l /\ t <> [] /\ (2 <= buf -> length t <= buf))%nat.
Proof.
  induction l as [|c l IH]; intros b ty t r H; cbn [tok_from] in H; [discriminate|].
  destruct b.
  { apply IH in H. cbn [length]. split; [lia|tauto]. }
  destruct (is_ws c). { apply IH in H. cbn [length]. split; [lia|tauto]. }
  destruct (c =? 37). { apply IH in H. cbn [length]. split; [lia|tauto]. }
  destruct ((c =? 60) || (c =? 62)).
  { destruct l as [|d l].
    - inversion H; subst. cbn [length]. split; [lia|]. split; [discriminate|lia].
    - destruct (d =? c); inversion H; subst; cbn [length]; (split; [lia|]; split; [discriminate|lia]). }
  destruct (token_delim c).
  { inversion H; subst. cbn [length]. split; [lia|]. split; [discriminate|lia]. }
  destruct (lit_rest (Nat.pred buf) l) as [t' r'] eqn:E. inversion H; subst.
  apply lit_rest_len in E. cbn [length]. split; [lia|]. split; [discriminate|lia].
Qed.

Lemma tok_len buf l ty t r : tok buf l = Some ((ty, t), r) ->
  (length t + length r <= length l /\ t <> [] /\ (2 <= buf -> length t <= buf))%nat.
Proof. apply tok_from_len. Qed.

(** * Tokens already fetched *)
(** [reads buf s inp]: state [s] stands for the text [inp] with up to two tokens prefetched. *)
Inductive reads (buf : nat) : tst -> list Z -> Prop :=
| reads_0 inp : reads buf (mk_tst [] inp) inp
| reads_1 inp t r : tok buf inp = Some (t, r) -> reads buf (mk_tst [t] r) inp
| reads_2 inp x r t2 r2 : tok buf inp = Some ((TLit, x), r) -> tok buf r = Some (t2, r2) ->
    reads buf (mk_tst [(TLit, x); t2] r2) inp.

Lemma firstn_tok buf l ty t r : (2 <= buf)%nat -> tok buf l = Some ((ty, t), r) -> firstn buf t = t.
Proof. intros Hb H. apply tok_len in H. apply firstn_all2. tauto. Qed.

Lemma reads_nil buf s inp : reads buf s inp -> (length (tq s) = 0)%nat -> s = mk_tst [] inp.
Proof. intros H Hq. inversion H; subst; cbn [tq length] in Hq; try discriminate. reflexivity. Qed.

Lemma next_reads buf s inp ty t r : (2 <= buf)%nat -> reads buf s inp -> tok buf inp = Some ((ty, t), r) ->
  exists s', next_token buf s = Some ((ty, t), s') /\ reads buf s' r /\
    (length (tq s') = pred (length (tq s)) /\ length (tq s') <= 1)%nat /\
    (ty <> TLit -> s' = mk_tst [] r).
Proof.
  intros Hb Hs Ht. inversion Hs; subst; clear Hs; unfold next_token; cbn [tq tin].
  - rewrite Ht. exists (mk_tst [] r). split; [reflexivity|]. split; [constructor|]. cbn; auto.
  - rewrite H in Ht. inversion Ht; subst. rewrite (firstn_tok _ _ _ _ _ Hb H).
    exists (mk_tst [] r). split; [reflexivity|]. split; [constructor|]. cbn; auto.
  - rewrite H in Ht. inversion Ht; subst. rewrite (firstn_tok _ _ _ _ _ Hb H).
    exists (mk_tst [t2] r2). split; [reflexivity|]. split; [constructor; auto|]. cbn. split; [auto|congruence].
Qed.

Lemma next_reads_none buf s inp : reads buf s inp -> tok buf inp = None -> s = mk_tst [] inp /\ next_token buf s = None.
Proof.
  intros Hs Ht. inversion Hs; subst; try congruence. unfold next_token. cbn [tq tin]. rewrite Ht. auto.
Qed.

(** What must follow a number so that it is not taken for the start of a reference. *)
Definition num_safe (buf : nat) (k : list Z) : Prop :=
  match tok buf k with
  | Some ((TLit, t2), r) =>
    match from_chars_int t2 with
    | None => True
    | Some _ => match tok buf r with
                | None => False
                | Some ((ty3, t3), _) => ~ (ty3 = TLit /\ t3 = [82])
                end
    end
  | _ => True
  end.

Lemma not_R ty t : ~ (ty = TLit /\ t = [82]) -> forall A (a b : A),
  match ty, t with TLit, [82] => a | _, _ => b end = b.
Proof.
  intros H A a b. destruct ty; try reflexivity. destruct t as [|c [|d t]]; try reflexivity.
  - destruct (Z.eq_dec c 82); [subst; exfalso; auto|]. destruct c as [|p|p]; try reflexivity.
    do 7 (destruct p as [p|p|]; try reflexivity). congruence.
  - destruct c as [|p|p]; try reflexivity. do 7 (destruct p as [p|p|]; try reflexivity).
Qed.

Lemma determine_number_safe buf rr n s k : (2 <= buf)%nat -> reads buf s k -> num_safe buf k ->
  (length (tq s) <= 1)%nat ->
  exists s', determine_number buf rr n s = (DVal (ONum n), s') /\ reads buf s' k.
Proof.
  intros Hb Hs Hk Hl. unfold determine_number. destruct rr; cbn [negb]; [|eauto].
  destruct (tok buf k) as [[[ty t] r]|] eqn:E.
  2:{ destruct (next_reads_none _ _ _ Hs E) as [-> ->]. eexists; split; [reflexivity|constructor]. }
  destruct (next_reads _ _ _ _ _ _ Hb Hs E) as (s2 & -> & Hs2 & [Hq Hq'] & _).
  assert (Hs2e : s2 = mk_tst [] r) by (apply (reads_nil buf); auto; lia).
  subst s2. unfold num_safe in Hk. rewrite E in Hk.
  destruct ty; try (eexists; split; [reflexivity|]; unfold enqueue; cbn [tq tin app]; eapply reads_1; exact E).
  destruct (from_chars_int t) as [g|].
  - destruct (tok buf r) as [[[ty3 t3] r3]|] eqn:E3; [|contradiction].
    destruct (next_reads _ _ _ _ _ _ Hb Hs2 E3) as (s3 & -> & Hs3 & [Hq3 _] & _).
    assert (s3 = mk_tst [] r3) as -> by (apply (reads_nil buf); auto).
    rewrite (not_R ty3 t3 Hk). eexists; split; [reflexivity|].
    unfold enqueue; cbn. eapply reads_2; eassumption.
  - eexists; split; [reflexivity|]. unfold enqueue; cbn [tq tin app]. eapply reads_1. exact E.
Qed.

(** A reference: number, number, R. *)
Lemma determine_number_ref buf n g s k t2 r2 r3 : (2 <= buf)%nat -> reads buf s k ->
  (length (tq s) <= 1)%nat -> tok buf k = Some ((TLit, t2), r2) -> from_chars_int t2 = Some g ->
  tok buf r2 = Some ((TLit, [82]), r3) ->
  determine_number buf true n s = (DVal (ORef (u32 n) (u16 g)), mk_tst [] r3).
Proof.
  intros Hb Hs Hl E Eg E3. unfold determine_number. cbn [negb].
  destruct (next_reads _ _ _ _ _ _ Hb Hs E) as (s2 & -> & Hs2 & [Hq Hq'] & _).
  rewrite Eg.
  destruct (next_reads _ _ _ _ _ _ Hb Hs2 E3) as (s3 & -> & Hs3 & [Hq3 _] & _).
  f_equal. apply (reads_nil buf); auto. lia.
Qed.
