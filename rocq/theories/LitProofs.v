(** The string reader against the definition of literal strings. *)
From Coq Require Import String.
From Verif Require Import Base TokModel WriteModel BitLemmas ReadEq TokProofs LexProofs ObjSpec ObjProofs FuelProofs ParseProofs ObjPropLemmas LitSpec.
Local Open Scope Z_scope.

Lemma oct_digit d : 0 <= d <= 7 -> is_octal (48 + d) = true /\ (48 + d - 48) mod 8 = d.
Proof. intro H. unfold is_octal. split; [apply andb_true_iff; split; apply Z.leb_le; lia|]. rewrite Z.mod_small; lia. Qed.
Lemma lor_oct v d : 0 <= d <= 7 -> u8 (Z.lor (v * 8) d) = (8 * v + d) mod 256.
Proof. intro D. change 8 with (2 ^ 3) at 1. rewrite lor_add by lia. unfold u8. f_equal. lia. Qed.

Lemma soct_step n v bal c r : is_octal c = false -> c <> 40 -> (c = 41 -> bal = 0) ->
  read_string (SOct n v) bal (c :: r) = let '(a, k) := read_string SNorm bal (c :: r) in (v :: a, k).
Proof.
  intros O P B. cbn [read_string]. rewrite O. cbn [negb].
  destruct (Z.eqb_spec c 41) as [E|E].
  - rewrite (B E). reflexivity.
  - rewrite andb_false_r. replace (c =? 40) with false by (symmetry; apply Z.eqb_neq; exact P). destruct (c =? 92).
    + reflexivity.
    + destruct (read_string SNorm bal r). reflexivity.
Qed.

Definition head_free (bal : Z) (t : list Z) : Prop := match t with c :: _ => is_octal c = false /\ c <> 40 /\ (c = 41 -> bal = 0) | [] => False end.
Lemma octal_reads ds bal t a k : (1 <= length ds <= 3)%nat -> Forall (fun d => 0 <= d <= 7) ds ->
  ((length ds < 3)%nat -> head_free bal t) -> read_string SNorm bal t = (a, k) ->
  read_string SEsc bal (map (fun d => 48 + d) ds ++ t) = ((fold_left (fun v d => 8 * v + d) ds 0 mod 256) :: a, k).
Proof.
  intros L F N R. destruct ds as [|d1 [|d2 [|d3 [|d4 ds]]]]; cbn in L; try lia.
  - apply Forall_inv in F. destruct (oct_digit d1 F) as [O M]. cbn [map app]. cbn [read_string]. rewrite O, M.
    specialize (N ltac:(cbn; lia)). destruct t as [|c r]; [destruct N|]. destruct N as (N1 & N2 & N3). rewrite soct_step, R by assumption.
    cbn [fold_left]. rewrite Z.mod_small by lia. reflexivity.
  - pose proof (Forall_inv F) as F1. pose proof (Forall_inv (Forall_inv_tail F)) as F2. destruct (oct_digit d1 F1) as [O M], (oct_digit d2 F2) as [O2 M2].
    cbn [map app]. cbn [read_string]. rewrite O, M, O2, M2. cbn [negb]. change (1 + 1 =? 3) with false. cbv iota.
    specialize (N ltac:(cbn; lia)). destruct t as [|c r]; [destruct N|]. destruct N as (N1 & N2 & N3). rewrite soct_step, R by assumption.
    rewrite lor_oct by assumption. reflexivity.
  - pose proof (Forall_inv F) as F1. pose proof (Forall_inv (Forall_inv_tail F)) as F2. pose proof (Forall_inv (Forall_inv_tail (Forall_inv_tail F))) as F3.
    destruct (oct_digit d1 F1) as [O M], (oct_digit d2 F2) as [O2 M2], (oct_digit d3 F3) as [O3 M3].
    cbn [map app]. cbn [read_string]. rewrite O, M, O2, M2, O3, M3. cbn [negb]. change (1 + 1 =? 3) with false. change (1 + 1 + 1 =? 3) with true. cbv iota.
    rewrite R. rewrite !lor_oct by assumption. cbn [fold_left]. f_equal. f_equal.
    cbv beta in F1, F2, F3. rewrite (Z.mod_small (8 * d1 + d2)) by lia. reflexivity.
Qed.

Lemma norm_plain bal c r a k : c <> 40 -> c <> 41 -> c <> 92 -> read_string SNorm bal r = (a, k) -> read_string SNorm bal (c :: r) = (c :: a, k).
Proof.
  intros A B C R. cbn [read_string]. apply Z.eqb_neq in A, B, C. rewrite A, B, C, andb_false_r, R. reflexivity.
Qed.
Lemma norm_escape bal r : read_string SNorm bal (92 :: r) = read_string SEsc bal r.
Proof. cbn [read_string]. rewrite andb_false_r. reflexivity. Qed.

Definition right_follow (p q : piece) : Prop := may_follow p q /\ supported_follow p q.
Lemma next_head l k d p : Forall piece_ok l -> balanced d l -> Forall supported l ->
  chained right_follow (p :: l) -> (exists ds, p = Octal ds /\ (length ds < 3)%nat) -> head_free (Z.of_nat d) (text l ++ 41 :: k).
Proof.
  intros O B S C (ds & -> & L). destruct l as [|q l].
  - cbn in B. subst d. cbn. repeat split. discriminate.
  - destruct C as [[M F] _]. pose proof (Forall_inv O) as Q. unfold text. cbn [map concat].
    destruct q; cbn [piece_text app head_free]; try (repeat split; discriminate).
    + cbn in Q, M. specialize (M L). split; [|split; [intuition lia|intuition lia]].
      unfold is_octal. apply andb_false_iff. rewrite !Z.leb_gt. lia.
    + cbn in F. lia.
    + cbn in F. lia.
    + pose proof (Forall_inv S) as E. cbn in E. subst e. repeat split; discriminate.
Qed.

Lemma reads_pieces l : forall d k, Forall piece_ok l -> chained right_follow l -> balanced d l -> Forall supported l ->
  read_string SNorm (Z.of_nat d) (text l ++ 41 :: k) = (value l, k).
Proof.
  induction l as [|p l IH]; intros d k O C B SU.
  - cbn in B. subst d. reflexivity.
  - pose proof (Forall_inv O) as P. pose proof (Forall_inv_tail O) as O'. pose proof (Forall_inv SU) as Q. pose proof (Forall_inv_tail SU) as S'.
    assert (C' : chained right_follow l) by (destruct l; [exact Logic.I|apply C]).
    unfold text, value. cbn [map concat]. rewrite <- app_assoc. fold (text l). fold (value l).
    destruct p as [c| | |c b|ds|e|c|e]; cbn [piece_text piece_value app]; cbn in P, Q.
    + apply norm_plain; [intuition lia|intuition lia|intuition lia|]. apply IH; assumption.
    + cbn in B. cbn [read_string]. rewrite andb_false_r. change (40 =? 40) with true. change (40 =? 92) with false. cbv iota zeta.
      replace (Z.of_nat d + 1) with (Z.of_nat (S d)) by lia. rewrite IH by assumption. reflexivity.
    + cbn in B. destruct d as [|d]; [destruct B|]. cbn [read_string]. replace (Z.of_nat (S d) =? 0) with false by (symmetry; apply Z.eqb_neq; lia).
      cbn [andb]. change (41 =? 40) with false. change (41 =? 41) with true. change (41 =? 92) with false. cbv iota zeta.
      replace (Z.of_nat (S d) - 1) with (Z.of_nat d) by lia. rewrite IH by assumption. reflexivity.
    + rewrite norm_escape. assert (R : read_string SNorm (Z.of_nat d) (text l ++ 41 :: k) = (value l, k)) by (apply IH; assumption).
      cbn in P. repeat (destruct P as [P|P]; [injection P as <- <-; cbn [read_string]; change (is_octal _) with false; cbv iota; cbn; rewrite R; reflexivity|]). destruct P.
    + rewrite norm_escape. cbn in B. apply octal_reads; try apply P.
      * intro L. eapply next_head; eauto.
      * apply IH; assumption.
    + rewrite norm_escape. assert (R : read_string SNorm (Z.of_nat d) (text l ++ 41 :: k) = (value l, k)) by (apply IH; assumption).
      destruct P as [<- |[<- |[<- |[]]]]; [exact R|exact R|congruence].
    + destruct Q.
    + subst e. apply norm_plain; [lia|lia|lia|]. apply IH; assumption.
Qed.
Lemma chained_and R R' l : chained R l -> chained R' l -> chained (fun p q => R p q /\ R' p q) l.
Proof. induction l as [|p [|q l] IH]; intros A B; [exact Logic.I|exact Logic.I|]. split; [split; [apply A|apply B]|]. apply IH; [apply A|apply B]. Qed.

Lemma parse_literal t k v rest : read_string SNorm 0 (t ++ 41 :: k) = (v, rest) ->
  parse default_params (40 :: t ++ 41 :: k) = Ok (Some (OStr false v), mk_tst [] rest).
Proof.
  intro H. set (inp := 40 :: t ++ 41 :: k).
  assert (T : tok (rbuf default_params) inp = Some ((TLParen, [40]), t ++ 41 :: k)) by (apply tok_delim1; reflexivity).
  rewrite <- (parse_any_fuel default_params _ (S (S (3 * length inp + 3)))) by lia.
  unfold read_next, next_token. cbn [tq tin]. rewrite T, ReadEq.read_variant_S.
  rewrite (proj2 (Nat.ltb_ge (rmax default_params) 1)) by exact max1. cbn [determine bind].
  rewrite ReadEq.read_data_S. cbn [tin tq]. rewrite H. reflexivity.
Qed.
Lemma literals_conform l k : literal l -> Forall supported l -> chained supported_follow l ->
  parse default_params (40 :: text l ++ 41 :: k) = Ok (Some (OStr false (value l)), mk_tst [] k).
Proof.
  intros (O & C & B) S F. apply parse_literal. apply (reads_pieces l 0 k O); [apply chained_and; assumption|exact B|exact S].
Qed.
