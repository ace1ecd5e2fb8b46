(** Round trips of the leaf syntax: names, strings, numbers. *)
From Coq Require Import String.
From Verif Require Import Base TokModel WriteModel TokProofs.
Local Open Scope Z_scope.

Ltac by_byte c Hc P :=
  let H := fresh in
  assert (H : P c = true) by (apply byte_check; [vm_compute; reflexivity|exact Hc]);
  cbv beta in H.

(** * Names *)
Lemma escape_name_ok n : bytes_ok n -> ~ In 0 n -> exists t, escape_name n = Ok t.
Proof.
  induction n as [|c n IH]; intros Hb Hz; [exists []; reflexivity|].
  cbn [escape_name]. inversion Hb; subst.
  destruct (c =? 0) eqn:E. { apply Z.eqb_eq in E. subst. exfalso. apply Hz. left; reflexivity. }
  destruct IH as [t ->]; auto. { intro Hi. apply Hz. right; exact Hi. }
  cbn [bind]. eauto.
Qed.

Lemma escape_name_nul n : In 0 n -> escape_name n = Err EInvalidName.
Proof.
  induction n as [|c n IH]; intros Hz; [destruct Hz|].
  cbn [escape_name]. destruct (c =? 0) eqn:E; [reflexivity|].
  destruct Hz as [->|Hz]; [discriminate|]. rewrite IH; auto.
Qed.

Definition name_byte_ok (c : Z) : bool :=
  (c =? 0) || (if name_plain c then is_regular c && is_printable c && negb (c =? 35)
               else forallb (fun d => is_regular d && is_printable d && negb (d =? 35)) (hex_byte c)
                    && (u8 (Z.lor (name_nibble (hex_digit (c / 16)) * 16) (Z.land (name_nibble (hex_digit (c mod 16))) 15)) =? c)).

Lemma name_bytes_ok c : is_byte c -> c <> 0 -> name_byte_ok c = true.
Proof. intros Hc _. apply byte_check; [vm_compute; reflexivity|exact Hc]. Qed.

Lemma escape_unescape n : forall t, bytes_ok n -> escape_name n = Ok t ->
  Forall (fun c => is_regular c = true /\ is_printable c = true) t /\ unescape_name t = n.
Proof.
  induction n as [|c n IH]; intros t Hb H; cbn [escape_name] in H.
  { inversion H; subst. split; [constructor|reflexivity]. }
  inversion Hb as [|? ? Hc Hn]; subst. destruct (c =? 0) eqn:E0; [discriminate|].
  destruct (escape_name n) as [t'| | |]; try discriminate. cbn [bind] in H.
  destruct (IH t' Hn eq_refl) as [IH1 IH2]. inversion H; subst; clear H.
  pose proof (name_bytes_ok c Hc ltac:(apply Z.eqb_neq; exact E0)) as Q.
  unfold name_byte_ok in Q. rewrite E0 in Q. cbn [orb] in Q.
  destruct (name_plain c).
  - apply andb_true_iff in Q. destruct Q as [Q Q3]. apply andb_true_iff in Q. destruct Q as [Q1 Q2].
    apply negb_true_iff in Q3. cbn [app]. split; [constructor; auto|].
    cbn [unescape_name]. rewrite Q3. f_equal.
  - apply andb_true_iff in Q. destruct Q as [Q1 Q2]. apply Z.eqb_eq in Q2.
    unfold hex_byte in *. cbn [forallb] in Q1.
    repeat match goal with H : _ && _ = true |- _ => apply andb_true_iff in H; destruct H end.
    cbn [app]. split.
    + constructor; [split; reflexivity|]. repeat (constructor; [split; assumption|]). exact IH1.
    + cbn [unescape_name]. change (35 =? 35) with true. cbn match. rewrite Q2. f_equal.
Qed.

(** * Literal strings *)
Definition string_byte_ok (c : Z) : bool :=
  if write_escape c =? 0
  then negb (c =? 41) && negb (c =? 40) && negb (c =? 92)
  else negb (is_octal (write_escape c)) && negb ((write_escape c =? 10) || (write_escape c =? 13))
       && negb (read_escape (write_escape c) =? 0) && (read_escape (write_escape c) =? c).

Lemma string_bytes_ok c : is_byte c -> string_byte_ok c = true.
Proof. intros Hc. apply byte_check; [vm_compute; reflexivity|exact Hc]. Qed.

Lemma read_string_escape s : bytes_ok s -> forall k, read_string SNorm 0 (escape_string s ++ 41 :: k) = (s, k).
Proof.
  induction s as [|c s IH]; intros Hb k; cbn [escape_string app]; [reflexivity|].
  inversion Hb as [|? ? Hc Hs]; subst.
  pose proof (string_bytes_ok c Hc) as Q. unfold string_byte_ok in Q.
  destruct (write_escape c =? 0).
  - repeat match goal with H : _ && _ = true |- _ => apply andb_true_iff in H; destruct H end.
    repeat match goal with H : negb _ = true |- _ => apply negb_true_iff in H end.
    cbn [app read_string]. rewrite H, H0, H1. rewrite andb_false_r.
    rewrite IH; auto.
  - repeat match goal with H : _ && _ = true |- _ => apply andb_true_iff in H; destruct H end.
    repeat match goal with H : negb _ = true |- _ => apply negb_true_iff in H end.
    apply Z.eqb_eq in H0. cbn [app read_string].
    change ((0 =? 0) && (92 =? 41)) with false. change (92 =? 40) with false. change (92 =? 41) with false.
    change (92 =? 92) with true. cbn match. rewrite H, H2, H1, H0. rewrite IH; auto.
Qed.

(** * Hex strings *)
Definition hex_byte_ok (c : Z) : bool :=
  forallb (fun d => is_hex d && negb (d =? 62) && negb (is_ws d)) (hex_byte c)
  && match hex_byte c with
     | [a; b] => match hex_val a, hex_val b with
                 | Some x, Some y => u8 (Z.lor (x * 16) y) =? c
                 | _, _ => false
                 end
     | _ => false
     end.

Lemma hex_bytes_ok c : is_byte c -> hex_byte_ok c = true.
Proof. intros Hc. apply byte_check; [vm_compute; reflexivity|exact Hc]. Qed.

Lemma hex_digits_app s : bytes_ok s -> forall k, hex_digits (flat_map hex_byte s ++ 62 :: k) = (flat_map hex_byte s, k).
Proof.
  induction s as [|c s IH]; intros Hb k; [reflexivity|].
  inversion Hb as [|? ? Hc Hs]; subst. pose proof (hex_bytes_ok c Hc) as Q. unfold hex_byte_ok in Q.
  apply andb_true_iff in Q. destruct Q as [Q _]. unfold hex_byte in *. cbn [forallb] in Q.
  repeat match goal with H : _ && _ = true |- _ => apply andb_true_iff in H; destruct H end.
  repeat match goal with H : negb _ = true |- _ => apply negb_true_iff in H end.
  cbn [flat_map app hex_digits].
  repeat match goal with H : (_ =? 62) = false |- _ => rewrite H; clear H end.
  unfold hex_byte in IH. rewrite IH; auto.
  repeat match goal with H : is_hex _ = true |- _ => rewrite H; clear H end. reflexivity.
Qed.

Lemma flat_map_hex_even s : Nat.odd (length (flat_map hex_byte s)) = false.
Proof. induction s as [|c s IH]; [reflexivity|]. cbn [flat_map hex_byte app length]. exact IH. Qed.

Lemma from_hex_flat s : bytes_ok s -> from_hex None (flat_map hex_byte s) = s.
Proof.
  induction s as [|c s IH]; intros Hb; [reflexivity|].
  inversion Hb as [|? ? Hc Hs]; subst. pose proof (hex_bytes_ok c Hc) as Q. unfold hex_byte_ok in Q.
  unfold hex_byte in *. cbn [forallb flat_map app from_hex] in *.
  destruct (hex_val (hex_digit (c / 16))) as [x|]; [|rewrite andb_false_r in Q; discriminate].
  destruct (hex_val (hex_digit (c mod 16))) as [y|]; [|rewrite andb_false_r in Q; discriminate].
  repeat match goal with H : _ && _ = true |- _ => apply andb_true_iff in H; destruct H end.
  repeat match goal with H : negb _ = true |- _ => apply negb_true_iff in H end.
  repeat match goal with H : is_ws _ = false |- _ => rewrite H; clear H end.
  match goal with H : (u8 _ =? _) = true |- _ => apply Z.eqb_eq in H; rewrite H end.
  rewrite IH; auto.
Qed.

Lemma read_hex_write s k : bytes_ok s -> read_hex (flat_map hex_byte s ++ 62 :: k) = (s, k).
Proof.
  intro Hb. unfold read_hex, read_hex_text. rewrite hex_digits_app; auto.
  rewrite flat_map_hex_even. rewrite from_hex_flat; auto.
Qed.

(** * Decimal numbers *)
Lemma digit_of v : 0 <= v < 10 -> is_digit (48 + v) = true.
Proof. intro H. unfold is_digit. apply andb_true_iff. split; apply Z.leb_le; lia. Qed.

Lemma dec_val_app a b : dec_val (a ++ b) = dec_val a * 10 ^ Z.of_nat (length b) + dec_val b.
Proof.
  unfold dec_val. rewrite fold_left_app. generalize (fold_left (fun a0 c : Z => a0 * 10 + (c - 48)) a 0).
  revert a. intros _. induction b as [|c b IH]; intro z.
  - cbn. lia.
  - cbn [fold_left length]. rewrite IH. rewrite (IH (0 * 10 + (c - 48))).
    rewrite Nat2Z.inj_succ, Z.pow_succ_r by lia. ring.
Qed.

Lemma dec_fuel_spec f : forall z, 0 <= z < 2 ^ Z.of_nat f ->
  Forall (fun c => is_digit c = true) (dec_fuel f z) /\ (f <> O -> dec_val (dec_fuel f z) = z /\ dec_fuel f z <> []).
Proof.
  induction f as [|f IH]; intros z Hz; cbn [dec_fuel].
  { split; [constructor|congruence]. }
  destruct (z <? 10) eqn:E.
  - apply Z.ltb_lt in E. split; [repeat constructor; apply digit_of; lia|].
    intros _. split; [unfold dec_val; cbn [fold_left]; lia|discriminate].
  - apply Z.ltb_ge in E. rewrite Nat2Z.inj_succ, Z.pow_succ_r in Hz by lia.
    assert (0 <= z / 10 < 2 ^ Z.of_nat f). { split; [apply Z.div_pos; lia|]. apply Z.div_lt_upper_bound; lia. }
    destruct (IH _ H) as [IH1 IH2]. split.
    + apply Forall_app. split; auto. repeat constructor. apply digit_of. apply Z.mod_pos_bound; lia.
    + intros _. assert (f <> O). { intro; subst f. cbn in H. assert (z / 10 = 0) by lia.
        apply Z.div_small_iff in H0; lia. }
      destruct (IH2 H0) as [IH3 _]. split.
      * rewrite dec_val_app, IH3. unfold dec_val. cbn [fold_left length]. 
        pose proof (Z.div_mod z 10 ltac:(lia)). change (10 ^ Z.of_nat 1) with 10. lia.
      * intro A. apply app_eq_nil in A. destruct A; discriminate.
Qed.

Lemma dec_spec z : 0 <= z -> Forall (fun c => is_digit c = true) (dec z) /\ dec_val (dec z) = z /\ dec z <> [].
Proof.
  intro Hz. unfold dec.
  destruct (dec_fuel_spec (S (Z.to_nat (Z.log2 z))) z) as [H1 H2].
  - split; [exact Hz|]. rewrite Nat2Z.inj_succ, Z2Nat.id by apply Z.log2_nonneg.
    destruct (Z.eq_dec z 0) as [->|]; [cbn; lia|]. apply Z.log2_spec; lia.
  - split; [exact H1|]. apply H2. discriminate.
Qed.

Lemma dec_fuel_len f : forall z m, 0 <= z < 10 ^ Z.of_nat m -> (1 <= m)%nat -> (length (dec_fuel f z) <= m)%nat.
Proof.
  induction f as [|f IH]; intros z m Hz Hm; cbn [dec_fuel]; [cbn; lia|].
  destruct (z <? 10) eqn:E; [cbn; lia|]. apply Z.ltb_ge in E.
  destruct m as [|m]; [lia|]. destruct m as [|m].
  { change (10 ^ Z.of_nat 1) with 10 in Hz. lia. }
  rewrite app_length. cbn [length]. specialize (IH (z / 10) (S m)).
  rewrite (Nat2Z.inj_succ (S m)), Z.pow_succ_r in Hz by lia.
  assert (0 <= z / 10 < 10 ^ Z.of_nat (S m)). { split; [apply Z.div_pos; lia|]. apply Z.div_lt_upper_bound; lia. }
  specialize (IH H ltac:(lia)). lia.
Qed.

Lemma dec_len z m : 0 <= z < 10 ^ Z.of_nat m -> (1 <= m)%nat -> (length (dec z) <= m)%nat.
Proof. intros. apply dec_fuel_len; auto. Qed.

Lemma span_digits_app a r : Forall (fun c => is_digit c = true) a ->
  match r with [] => True | c :: _ => is_digit c = false end -> span_digits (a ++ r) = (a, r).
Proof.
  induction a as [|c a IH]; intros Ha Hr; cbn [app].
  - destruct r as [|c r]; [reflexivity|]. cbn [span_digits]. rewrite Hr. reflexivity.
  - inversion Ha; subst. cbn [span_digits]. rewrite H1, IH; auto.
Qed.

Lemma span_digits_all a : Forall (fun c => is_digit c = true) a -> span_digits a = (a, []).
Proof. intro H. rewrite <- (app_nil_r a) at 1. apply span_digits_app; auto. Qed.

Lemma digit_not_minus l : Forall (fun c => is_digit c = true) l -> match l with [] => True | c :: _ => (c =? 45) = false end.
Proof.
  intro H. destruct H as [|c l H]; auto. unfold is_digit in H. apply andb_true_iff in H. destruct H as [H _].
  apply Z.leb_le in H. apply Z.eqb_neq. lia.
Qed.

Lemma from_chars_dec z : int64_ok z = true -> from_chars_int (dec_signed z) = Some z.
Proof.
  intro Hz. unfold dec_signed. destruct (z <? 0) eqn:E.
  - apply Z.ltb_lt in E. destruct (dec_spec (- z) ltac:(lia)) as (H1 & H2 & H3).
    unfold from_chars_int. change (45 =? 45) with true. cbn match.
    rewrite span_digits_all by exact H1. destruct (dec (- z)) eqn:Ed; [congruence|].
    rewrite H2. rewrite Z.opp_involutive, Hz. reflexivity.
  - apply Z.ltb_ge in E. destruct (dec_spec z ltac:(lia)) as (H1 & H2 & H3).
    unfold from_chars_int. pose proof (digit_not_minus _ H1) as H4.
    destruct (dec z) as [|c l] eqn:Ed; [congruence|]. rewrite H4.
    rewrite span_digits_all by exact H1. rewrite H2, Hz. reflexivity.
Qed.

Lemma digit_regular c : is_digit c = true -> is_regular c = true.
Proof.
  unfold is_digit. intro H. apply andb_true_iff in H. destruct H as [H1 H2].
  apply Z.leb_le in H1. apply Z.leb_le in H2.
  assert (Hb : is_byte c) by (unfold is_byte; lia).
  pose proof (byte_check (fun c => negb (is_digit c) || is_regular c) ltac:(vm_compute; reflexivity) c Hb) as Q.
  cbv beta in Q. apply orb_true_iff in Q. destruct Q as [Q|Q]; auto.
  unfold is_digit in Q. apply negb_true_iff in Q. apply andb_false_iff in Q. rewrite !Z.leb_gt in Q. lia.
Qed.

Lemma dec_regular z : 0 <= z -> Forall (fun c => is_regular c = true) (dec z).
Proof. intro H. destruct (dec_spec z H) as [H1 _]. eapply Forall_impl; [|exact H1]. apply digit_regular. Qed.

Lemma dec_signed_regular z : Forall (fun c => is_regular c = true) (dec_signed z) /\ dec_signed z <> [].
Proof.
  unfold dec_signed. destruct (z <? 0) eqn:E.
  - apply Z.ltb_lt in E. split; [constructor; [reflexivity|apply dec_regular; lia]|discriminate].
  - apply Z.ltb_ge in E. split; [apply dec_regular; lia|apply dec_spec; lia].
Qed.

Lemma dec_signed_len z : int64_ok z = true -> (length (dec_signed z) <= 20)%nat.
Proof.
  unfold int64_ok, dec_signed. intro H. apply andb_true_iff in H. destruct H as [H1 H2].
  apply Z.leb_le in H1. apply Z.ltb_lt in H2. 
  assert (L: forall x, 0 <= x <= 2 ^ 63 -> (length (dec x) <= 19)%nat).
  { intros x Hx. apply dec_len; [|lia]. split; [lia|]. eapply Z.le_lt_trans; [apply Hx|]. reflexivity. }
  destruct (z <? 0) eqn:E.
  - apply Z.ltb_lt in E. cbn [length]. specialize (L (- z)). lia.
  - apply Z.ltb_ge in E. specialize (L z). lia.
Qed.

Lemma lit_kind_digits l : forall b, Forall (fun c => is_digit c = true) l -> lit_kind b l = Some b.
Proof.
  induction l as [|c l IH]; intros b H; [reflexivity|]. inversion H; subst. cbn [lit_kind].
  assert ((c =? 46) = false) as ->.
  { unfold is_digit in H2. apply andb_true_iff in H2. destruct H2 as [H2 _]. apply Z.leb_le in H2. apply Z.eqb_neq. lia. }
  rewrite H2. cbn [orb]. apply IH; auto.
Qed.

Lemma dec_signed_kind z : lit_kind false (dec_signed z) = Some false.
Proof.
  unfold dec_signed. destruct (z <? 0) eqn:E.
  - apply Z.ltb_lt in E. cbn [lit_kind]. change (45 =? 46) with false. cbn. apply lit_kind_digits. apply dec_spec; lia.
  - apply Z.ltb_ge in E. apply lit_kind_digits. apply dec_spec; lia.
Qed.

Lemma number_not_keyword t : (match t with c :: _ => is_digit c || (c =? 45) = true | [] => False end) ->
  beq t (bs "null") = false /\ beq t (bs "true") = false /\ beq t (bs "false") = false.
Proof.
  destruct t as [|c t]; [tauto|]. intro H.
  assert (48 <= c <= 57 \/ c = 45) as Hc.
  { apply orb_true_iff in H. destruct H as [H|H].
    - unfold is_digit in H. apply andb_true_iff in H. rewrite !Z.leb_le in H. lia.
    - apply Z.eqb_eq in H. lia. }
  unfold bs. cbn [beq]. 
  repeat split; apply andb_false_iff; left; apply Z.eqb_neq; cbn; lia.
Qed.

Lemma dec_signed_head z : match dec_signed z with c :: _ => is_digit c || (c =? 45) = true | [] => False end.
Proof.
  unfold dec_signed. destruct (z <? 0) eqn:E; [reflexivity|].
  apply Z.ltb_ge in E. destruct (dec_spec z ltac:(lia)) as (H1 & _ & H3).
  destruct (dec z); [congruence|]. inversion H1; subst. rewrite H2. reflexivity.
Qed.
