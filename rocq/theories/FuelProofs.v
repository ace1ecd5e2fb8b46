(** The reader always finishes: a bound on the recursion in the size of what is left to read. *)
From Coq Require Import String.
From Verif Require Import Base TokModel ReadEq TokProofs.
Local Open Scope Z_scope.

Definition mu (s : tst) : nat := (length (tin s) + length (tq s))%nat.

Lemma next_token_mu buf s t s' : next_token buf s = Some (t, s') -> (S (mu s') <= mu s)%nat.
Proof.
  unfold next_token, mu. destruct (tq s) as [|[ty x] q] eqn:Eq.
  - destruct (tok buf (tin s)) as [[[ty x] r]|] eqn:E; [|discriminate]. intro H; inversion H; subst. cbn [tin tq].
    apply tok_len in E. destruct E as (E1 & E2 & _). destruct x; [congruence|]. cbn [length] in *. lia.
  - intro H; inversion H; subst. cbn [tin tq length]. lia.
Qed.

Lemma enqueue_mu s t : mu (enqueue s t) = S (mu s).
Proof. unfold mu, enqueue. cbn [tin tq]. rewrite app_length. cbn [length]. lia. Qed.

Lemma determine_number_mu buf rr n s dt s' : determine_number buf rr n s = (dt, s') ->
  (mu s' <= mu s)%nat /\ dt <> DDict /\ dt <> DArr.
Proof.
  unfold determine_number. destruct (negb rr); [intro H; inversion H; subst; split; [lia|split; discriminate]|].
  destruct (next_token buf s) as [[[ty2 t2] s2]|] eqn:E2; [|intro H; inversion H; subst; split; [lia|split; discriminate]].
  apply next_token_mu in E2.
  destruct ty2; try (intro H; inversion H; subst; rewrite enqueue_mu; split; [lia|split; discriminate]).
  destruct (from_chars_int t2); [|intro H; inversion H; subst; rewrite enqueue_mu; split; [lia|split; discriminate]].
  destruct (next_token buf s2) as [[[ty3 t3] s3]|] eqn:E3; [|intro H; inversion H; subst; split; [lia|split; discriminate]].
  apply next_token_mu in E3. intro H.
  assert (G : (s' = s3 \/ s' = enqueue (enqueue s3 (TLit, t2)) (ty3, t3)) /\ dt <> DDict /\ dt <> DArr).
  { destruct ty3; try (inversion H; subst; split; [auto|split; discriminate]).
    destruct t3 as [|c [|d t3]]; try (inversion H; subst; split; [auto|split; discriminate]);
    destruct c as [|p|p]; try (inversion H; subst; split; [auto|split; discriminate]);
    do 7 (try (destruct p as [p|p|]; try (inversion H; subst; split; [auto|split; discriminate]))). }
  destruct G as [[->| ->] G]; rewrite ?enqueue_mu; split; auto; lia.
Qed.

Lemma determine_mu buf rr t s dt s' : determine buf rr t s = Ok (dt, s') -> (mu s' <= mu s)%nat.
Proof.
  unfold determine. destruct t as [ty x]. destruct ty; try discriminate; try (intro H; inversion H; subst; lia).
  destruct (beq x (bs "null")); [intro H; inversion H; subst; lia|].
  destruct (beq x (bs "true")); [intro H; inversion H; subst; lia|].
  destruct (beq x (bs "false")); [intro H; inversion H; subst; lia|].
  destruct (lit_kind false x) as [[|]|].
  - destruct (from_chars_real x) as [[m k]|]; [|discriminate]. intro H; inversion H; subst; lia.
  - destruct (from_chars_int x); [|discriminate]. intro H. apply ok_inj in H.
    destruct (determine_number buf rr z s) eqn:E. inversion H; subst. eapply determine_number_mu; eauto.
  - intro H; inversion H; subst; lia.
Qed.

Lemma determine_nofuel buf rr t s : determine buf rr t s <> Fuel.
Proof.
  unfold determine. destruct t as [ty x]. destruct ty; try discriminate.
  destruct (beq x (bs "null")); [discriminate|]. destruct (beq x (bs "true")); [discriminate|].
  destruct (beq x (bs "false")); [discriminate|].
  destruct (lit_kind false x) as [[|]|]; try discriminate.
  - destruct (from_chars_real x) as [[m k]|]; discriminate.
  - destruct (from_chars_int x); discriminate.
Qed.

Lemma determine_noub buf rr t s : determine buf rr t s <> UB.
Proof.
  unfold determine. destruct t as [ty x]. destruct ty; try discriminate.
  destruct (beq x (bs "null")); [discriminate|]. destruct (beq x (bs "true")); [discriminate|].
  destruct (beq x (bs "false")); [discriminate|].
  destruct (lit_kind false x) as [[|]|]; try discriminate.
  - destruct (from_chars_real x) as [[m k]|]; discriminate.
  - destruct (from_chars_int x); discriminate.
Qed.

Lemma read_string_len inp : forall st bal a k, read_string st bal inp = (a, k) -> (length k <= length inp)%nat.
Proof.
  induction inp as [|c r IH]; intros st bal a k H; cbn [read_string] in H.
  - inversion H; subst. cbn. lia.
  - cbn [length]. destruct st.
    + destruct ((bal =? 0) && (c =? 41)); [inversion H; subst; lia|].
      destruct (c =? 92); [apply IH in H; lia|].
      destruct (read_string SNorm _ r) as [a' k'] eqn:E. inversion H; subst. apply IH in E. lia.
    + destruct (is_octal c); [apply IH in H; lia|].
      destruct ((c =? 10) || (c =? 13)); [apply IH in H; lia|].
      destruct (read_escape c =? 0); [apply IH in H; lia|].
      destruct (read_string SNorm _ r) as [a' k'] eqn:E. inversion H; subst. apply IH in E. lia.
    + destruct (negb (is_octal c)).
      * destruct (c =? 41); [inversion H; subst; lia|]. destruct (c =? 92);
          [destruct (read_string SEsc _ r) as [a' k'] eqn:E|destruct (read_string SNorm _ r) as [a' k'] eqn:E];
          inversion H; subst; apply IH in E; lia.
      * destruct (n + 1 =? 3).
        -- destruct (read_string SNorm _ r) as [a' k'] eqn:E. inversion H; subst. apply IH in E. lia.
        -- apply IH in H. lia.
Qed.

Lemma hex_digits_len inp : forall a k, hex_digits inp = (a, k) -> (length k <= length inp)%nat.
Proof.
  induction inp as [|c r IH]; intros a k H; cbn [hex_digits] in H.
  - inversion H; subst. cbn. lia.
  - cbn [length]. destruct (c =? 62); [inversion H; subst; lia|].
    destruct (hex_digits r) as [a' k'] eqn:E. specialize (IH _ _ eq_refl). destruct (is_hex c); inversion H; subst; lia.
Qed.
Lemma read_hex_len inp a k : read_hex inp = (a, k) -> (length k <= length inp)%nat.
Proof.
  unfold read_hex, read_hex_text. destruct (hex_digits inp) as [d k'] eqn:E. apply hex_digits_len in E.
  intro H; inversion H; subst. lia.
Qed.

Lemma read_name_mu buf s n s' : read_name buf s = (n, s') -> (mu s' <= mu s)%nat.
Proof.
  unfold read_name. destruct (tin s) as [|c r]; [intro H; inversion H; subst; lia|].
  destruct (is_ws c); [intro H; inversion H; subst; lia|].
  destruct (next_token buf s) as [[[ty x] s1]|] eqn:E; [|intro H; inversion H; subst; lia].
  apply next_token_mu in E.
  destruct ty; intro H; inversion H; subst; rewrite ?enqueue_mu; lia.
Qed.

Ltac inv H := inversion H; subst; clear H.
Ltac bind_case H E := match type of H with bind ?r _ = _ => let q := fresh "p" in destruct r as [q| | |] eqn:E; cbn [bind] in H; try discriminate end.

(** Reading never makes the rest longer. *)
Lemma read_mu P fuel : (forall d t s v s', read_variant P fuel d t s = Ok (v, s') -> (mu s' <= mu s)%nat) /\
  (forall d dt s v s', read_data P fuel d dt s = Ok (v, s') -> (mu s' <= mu s)%nat) /\
  (forall d a s v s', read_array P fuel d a s = Ok (v, s') -> (mu s' <= mu s)%nat) /\
  (forall d a c s v s', read_dict P fuel d a c s = Ok (v, s') -> (mu s' <= mu s)%nat).
Proof.
  induction fuel as [|f (IV & ID & IA & IM)]; [repeat split; intros; discriminate|]. repeat split.
  - intros d t s v s' H. rewrite read_variant_S in H. destruct (rmax P <? S d)%nat; [discriminate|].
    bind_case H E. destruct p as [dt s1]. apply determine_mu in E. apply ID in H. lia.
  - intros d dt s v s' H. rewrite read_data_S in H. destruct dt.
    + inv H. lia.
    + bind_case H E. destruct p as [x s1]. inv H. apply IM in E. lia.
    + bind_case H E. destruct p as [x s1]. inv H. apply IA in E. lia.
    + destruct (read_string SNorm 0 (tin s)) as [x k] eqn:E. inv H. apply read_string_len in E. unfold mu. cbn [tin tq]. lia.
    + destruct (read_hex (tin s)) as [x k] eqn:E. inv H. apply read_hex_len in E. unfold mu. cbn [tin tq]. lia.
    + destruct (read_name (rbuf P) s) as [x k] eqn:E. inv H. apply read_name_mu in E. lia.
    + inv H. lia.
  - intros d a s v s' H. rewrite read_array_S in H.
    destruct (next_token (rbuf P) s) as [[[ty x] s1]|] eqn:E; [|discriminate]. apply next_token_mu in E.
    destruct ty; try (inv H; lia);
      (bind_case H E1; destruct p as [[o|] s2]; [|discriminate]; apply IV in E1; apply IA in H; lia).
  - intros d a c s v s' H. rewrite read_dict_S in H.
    destruct (next_token (rbuf P) s) as [[[ty x] s1]|] eqn:E; [|discriminate]. apply next_token_mu in E.
    assert (G : ty = TDRAng \/ (do (v, s2) <- read_variant P f d (ty, x) s1;
      match v with
      | None => Err EInvalidDataType
      | Some (OName key) =>
        match next_token (rbuf P) s2 with
        | None => Err EUnexpectedEOF
        | Some (t', s3) =>
          do (dt, s4) <- determine (rbuf P) (rrefs P) t' s3;
          match beq key (bs "Contents"), dt with
          | true, DHex => let '(x, k) := read_hex (tin s4) in read_dict P f d a (Some x) (mk_tst (tq s4) k)
          | _, _ =>
            do (v', s5) <- read_data P f d dt s4;
            match v' with None => Err EInvalidDataType | Some o => read_dict P f d (dict_add key o a) c s5 end
          end
        end
      | Some _ => Err EInvalidDataType
      end) = Ok (v, s')) by (destruct ty; auto).
    destruct G as [G|G]; [subst ty; inv H; lia|]. clear H. rename G into H.
    bind_case H E1. destruct p as [[o|] s2]; [|discriminate]. apply IV in E1.
    destruct o as [| | | |key| | | |]; try discriminate.
    destruct (next_token (rbuf P) s2) as [[t' s3]|] eqn:E3; [|discriminate]. apply next_token_mu in E3.
    bind_case H E4. destruct p as [dt s4]. apply determine_mu in E4.
    assert (G : (exists x k, read_hex (tin s4) = (x, k) /\ read_dict P f d a (Some x) (mk_tst (tq s4) k) = Ok (v, s')) \/
      (do (v', s5) <- read_data P f d dt s4;
            match v' with None => Err EInvalidDataType | Some o => read_dict P f d (dict_add key o a) c s5 end) = Ok (v, s')).
    { destruct (beq key (bs "Contents")); [|auto]. destruct dt; auto.
      destruct (read_hex (tin s4)) as [y k] eqn:EH. left. exists y, k. auto. }
    destruct G as [(y & k & E5 & G)|G].
    + apply read_hex_len in E5. apply IM in G. unfold mu in *. cbn [tin tq] in *. lia.
    + bind_case G E5. destruct p as [[o|] s5]; [|discriminate]. apply ID in E5. apply IM in G. lia.
Qed.

(** The text is enough fuel. *)
Lemma read_nofuel P fuel :
  (forall d t s, (3 * mu s + 3 <= fuel)%nat -> read_variant P fuel d t s <> Fuel) /\
  (forall d dt s, (3 * mu s + 2 <= fuel)%nat -> read_data P fuel d dt s <> Fuel) /\
  (forall d a s, (3 * mu s + 1 <= fuel)%nat -> read_array P fuel d a s <> Fuel) /\
  (forall d a c s, (3 * mu s + 1 <= fuel)%nat -> read_dict P fuel d a c s <> Fuel).
Proof.
  induction fuel as [|f (IV & ID & IA & IM)]; [repeat split; intros; lia|]. 
  destruct (read_mu P f) as (MV & MD & _ & _). repeat split.
  - intros d t s Hf. rewrite read_variant_S. destruct (rmax P <? S d)%nat; [discriminate|].
    destruct (determine (rbuf P) (rrefs P) t s) as [[dt s1]| | |] eqn:E; cbn [bind]; try discriminate.
    + apply determine_mu in E. apply ID. lia.
    + exfalso. eapply determine_nofuel; eauto.
  - intros d dt s Hf. rewrite read_data_S. destruct dt; try discriminate.
    + pose proof (IM d [] None s ltac:(lia)). destruct (read_dict P f d [] None s) as [[x s1]| | |]; cbn [bind]; congruence.
    + pose proof (IA d [] s ltac:(lia)). destruct (read_array P f d [] s) as [[x s1]| | |]; cbn [bind]; congruence.
    + destruct (read_string SNorm 0 (tin s)). discriminate.
    + destruct (read_hex (tin s)). discriminate.
    + destruct (read_name (rbuf P) s). discriminate.
  - intros d a s Hf. rewrite read_array_S.
    destruct (next_token (rbuf P) s) as [[[ty x] s1]|] eqn:E; [|discriminate]. apply next_token_mu in E.
    assert (G : (do (v, s2) <- read_variant P f d (ty, x) s1;
      match v with None => Err EInvalidDataType | Some o => read_array P f d (a ++ [o]) s2 end) <> Fuel).
    { pose proof (IV d (ty, x) s1 ltac:(lia)) as A.
      destruct (read_variant P f d (ty, x) s1) as [[v s2]| | |] eqn:E1; cbn [bind]; try congruence.
      destruct v; [|discriminate]. apply MV in E1. apply IA. lia. }
    destruct ty; exact G || discriminate.
  - intros d a c s Hf. rewrite read_dict_S.
    destruct (next_token (rbuf P) s) as [[[ty x] s1]|] eqn:E; [|discriminate]. apply next_token_mu in E.
    assert (G : (do (v, s2) <- read_variant P f d (ty, x) s1;
      match v with
      | None => Err EInvalidDataType
      | Some (OName key) =>
        match next_token (rbuf P) s2 with
        | None => Err EUnexpectedEOF
        | Some (t', s3) =>
          do (dt, s4) <- determine (rbuf P) (rrefs P) t' s3;
          match beq key (bs "Contents"), dt with
          | true, DHex => let '(x, k) := read_hex (tin s4) in read_dict P f d a (Some x) (mk_tst (tq s4) k)
          | _, _ =>
            do (v', s5) <- read_data P f d dt s4;
            match v' with None => Err EInvalidDataType | Some o => read_dict P f d (dict_add key o a) c s5 end
          end
        end
      | Some _ => Err EInvalidDataType
      end) <> Fuel).
    { pose proof (IV d (ty, x) s1 ltac:(lia)) as A.
      destruct (read_variant P f d (ty, x) s1) as [[v s2]| | |] eqn:E1; cbn [bind]; try congruence.
      destruct v as [o|]; [|discriminate]. apply MV in E1. destruct o as [| | | |key| | | |]; try discriminate.
      destruct (next_token (rbuf P) s2) as [[t' s3]|] eqn:E3; [|discriminate]. apply next_token_mu in E3.
      destruct (determine (rbuf P) (rrefs P) t' s3) as [[dt s4]| | |] eqn:E4; cbn [bind]; try discriminate.
      2:{ exfalso. eapply determine_nofuel; eauto. }
      apply determine_mu in E4.
      assert (G : (do (v', s5) <- read_data P f d dt s4;
            match v' with None => Err EInvalidDataType | Some o => read_dict P f d (dict_add key o a) c s5 end) <> Fuel).
      { pose proof (ID d dt s4 ltac:(lia)) as B.
        destruct (read_data P f d dt s4) as [[v' s5]| | |] eqn:E5; cbn [bind]; try congruence.
        destruct v'; [|discriminate]. apply MD in E5. apply IM. lia. }
      destruct (beq key (bs "Contents")); [|exact G]. destruct dt; try exact G.
      destruct (read_hex (tin s4)) as [y k] eqn:EH. apply read_hex_len in EH. apply IM. unfold mu in *. cbn [tin tq]. lia. }
    destruct ty; exact G || discriminate.
Qed.

(** More fuel changes nothing. *)
Lemma read_fuel_S P fuel :
  (forall d t s, read_variant P fuel d t s <> Fuel -> read_variant P (S fuel) d t s = read_variant P fuel d t s) /\
  (forall d dt s, read_data P fuel d dt s <> Fuel -> read_data P (S fuel) d dt s = read_data P fuel d dt s) /\
  (forall d a s, read_array P fuel d a s <> Fuel -> read_array P (S fuel) d a s = read_array P fuel d a s) /\
  (forall d a c s, read_dict P fuel d a c s <> Fuel -> read_dict P (S fuel) d a c s = read_dict P fuel d a c s).
Proof.
  induction fuel as [|f (IV & ID & IA & IM)]; [repeat split; intros; exfalso; apply H; reflexivity|]. repeat split.
  - intros d t s. rewrite (read_variant_S P (S f)), (read_variant_S P f). destruct (rmax P <? S d)%nat; auto.
    destruct (determine (rbuf P) (rrefs P) t s) as [[dt s1]| | |] eqn:E; cbn [bind]; auto.
  - intros d dt s. rewrite (read_data_S P (S f)), (read_data_S P f). destruct dt; auto.
    + intro H. rewrite IM; auto. intro A. rewrite A in H. apply H. reflexivity.
    + intro H. rewrite IA; auto. intro A. rewrite A in H. apply H. reflexivity.
  - intros d a s. rewrite (read_array_S P (S f)), (read_array_S P f).
    destruct (next_token (rbuf P) s) as [[[ty x] s1]|] eqn:E; auto.
    assert (G : (do (v, s2) <- read_variant P f d (ty, x) s1;
      match v with None => Err EInvalidDataType | Some o => read_array P f d (a ++ [o]) s2 end) <> Fuel ->
      (do (v, s2) <- read_variant P (S f) d (ty, x) s1;
      match v with None => Err EInvalidDataType | Some o => read_array P (S f) d (a ++ [o]) s2 end) =
      (do (v, s2) <- read_variant P f d (ty, x) s1;
      match v with None => Err EInvalidDataType | Some o => read_array P f d (a ++ [o]) s2 end)).
    { intro H. rewrite IV by (intro A; rewrite A in H; apply H; reflexivity).
      destruct (read_variant P f d (ty, x) s1) as [[v s2]| | |] eqn:E1; cbn [bind] in *; auto.
      destruct v; auto. }
    destruct ty; exact G || reflexivity.
  - intros d a c s. rewrite (read_dict_S P (S f)), (read_dict_S P f).
    destruct (next_token (rbuf P) s) as [[[ty x] s1]|] eqn:E; auto.
    set (B := fun f => do (v, s2) <- read_variant P f d (ty, x) s1;
      match v with
      | None => Err EInvalidDataType
      | Some (OName key) =>
        match next_token (rbuf P) s2 with
        | None => Err EUnexpectedEOF
        | Some (t', s3) =>
          do (dt, s4) <- determine (rbuf P) (rrefs P) t' s3;
          match beq key (bs "Contents"), dt with
          | true, DHex => let '(x, k) := read_hex (tin s4) in read_dict P f d a (Some x) (mk_tst (tq s4) k)
          | _, _ =>
            do (v', s5) <- read_data P f d dt s4;
            match v' with None => Err EInvalidDataType | Some o => read_dict P f d (dict_add key o a) c s5 end
          end
        end
      | Some _ => Err EInvalidDataType
      end).
    assert (G : B f <> Fuel -> B (S f) = B f).
    { unfold B. intro H. rewrite IV by (intro A; rewrite A in H; apply H; reflexivity).
      destruct (read_variant P f d (ty, x) s1) as [[v s2]| | |] eqn:E1; cbn [bind] in *; auto.
      destruct v as [o|]; auto. destruct o as [| | | |key| | | |]; auto.
      destruct (next_token (rbuf P) s2) as [[t' s3]|] eqn:E3; auto.
      destruct (determine (rbuf P) (rrefs P) t' s3) as [[dt s4]| | |] eqn:E4; cbn [bind] in *; auto.
      assert (G : (do (v', s5) <- read_data P f d dt s4;
            match v' with None => Err EInvalidDataType | Some o => read_dict P f d (dict_add key o a) c s5 end) <> Fuel ->
           (do (v', s5) <- read_data P (S f) d dt s4;
            match v' with None => Err EInvalidDataType | Some o => read_dict P (S f) d (dict_add key o a) c s5 end) =
           (do (v', s5) <- read_data P f d dt s4;
            match v' with None => Err EInvalidDataType | Some o => read_dict P f d (dict_add key o a) c s5 end)).
      { intro H'. rewrite ID by (intro A; rewrite A in H'; apply H'; reflexivity).
        destruct (read_data P f d dt s4) as [[v' s5]| | |] eqn:E5; cbn [bind] in *; auto. destruct v'; auto. }
      destruct (beq key (bs "Contents")); [|apply G; exact H]. destruct dt; try (apply G; exact H).
      destruct (read_hex (tin s4)) as [y k] eqn:EH. apply IM. exact H. }
    destruct ty; exact G || reflexivity.
Qed.

Lemma read_variant_mono P f1 f2 d t s : (f1 <= f2)%nat -> read_variant P f1 d t s <> Fuel ->
  read_variant P f2 d t s = read_variant P f1 d t s.
Proof.
  induction 1 as [|f2 Hle IH]; intro H; [reflexivity|].
  rewrite (proj1 (read_fuel_S P f2)); [apply IH; exact H|]. rewrite IH by exact H. exact H.
Qed.

(** Enough fuel for the text gives the answer of any larger fuel. *)
Lemma read_variant_enough P f1 f2 d t s : (3 * mu s + 3 <= f1)%nat -> (3 * mu s + 3 <= f2)%nat ->
  read_variant P f1 d t s = read_variant P f2 d t s.
Proof.
  intros H1 H2. destruct (Nat.le_ge_cases f1 f2) as [H|H].
  - symmetry. apply read_variant_mono; auto. apply read_nofuel. exact H1.
  - apply read_variant_mono; auto. apply read_nofuel. exact H2.
Qed.
