(** Reals: what any written real reads back as. *)
From Coq Require Import String.
From Verif Require Import Base TokModel ReadEq WriteModel DictProofs TokProofs LexProofs RealProofs ObjSpec ObjProofs FuelProofs ParseProofs.
Local Open Scope Z_scope.

(** The value [m / 10^k] and the number object [o] differ by at most half a unit of the sixth decimal. *)
Definition near_real (m : Z) (k : nat) (o : obj) : Prop :=
  exists m' j, (o = OReal m' j \/ (o = ONum m' /\ j = 0%nat)) /\
    2 * Z.abs (m * 10 ^ (Z.of_nat j + 6) - m' * 10 ^ (Z.of_nat k + 6)) <= 10 ^ (Z.of_nat k + Z.of_nat j).

Lemma round_div_err a b : 0 < b -> 0 <= a -> 2 * Z.abs (round_div a b * b - a) <= b.
Proof.
  intros Hb Ha. unfold round_div. pose proof (Z.div_mod a b ltac:(lia)). pose proof (Z.mod_pos_bound a b Hb).
  destruct (2 * (a mod b) <? b) eqn:E1; [nia|]. destruct (b <? 2 * (a mod b)) eqn:E2; [nia|]. destruct (Z.even (a / b)); nia.
Qed.

Lemma micro_err m k : 2 * Z.abs (micro m k * 10 ^ Z.of_nat k - Z.abs m * 10 ^ 6) <= 10 ^ Z.of_nat k.
Proof. apply round_div_err; [apply Z.pow_pos_nonneg; lia|lia]. Qed.

Lemma micro_near m k u j mm : u = micro m k -> u = mm * 10 ^ Z.of_nat (6 - j) -> (j <= 6)%nat ->
  2 * Z.abs (m * 10 ^ (Z.of_nat j + 6) - ((if m <? 0 then -1 else 1) * mm) * 10 ^ (Z.of_nat k + 6)) <= 10 ^ (Z.of_nat k + Z.of_nat j).
Proof.
  intros Hu Hm Hj. pose proof (micro_err m k) as E. rewrite <- Hu in E. rewrite Hm in E.
  assert (P6 : 10 ^ Z.of_nat (6 - j) * 10 ^ Z.of_nat j = 10 ^ 6).
  { rewrite <- Z.pow_add_r by lia. f_equal. lia. }
  rewrite !Z.pow_add_r by lia.
  set (A := 10 ^ Z.of_nat k) in *. set (B := 10 ^ Z.of_nat j) in *. set (C := 10 ^ Z.of_nat (6 - j)) in *.
  assert (HB : 0 < B) by (apply Z.pow_pos_nonneg; lia).
  rewrite <- P6 in *. clearbody A B C.
  assert (Hs : m = (if m <? 0 then -1 else 1) * Z.abs m) by (symmetry; apply sign_abs).
  set (sg := if m <? 0 then -1 else 1) in *.
  assert (Hsg : sg = 1 \/ sg = -1) by (subst sg; destruct (m <? 0); auto).
  rewrite Hs at 1. clearbody sg. clear Hs.
  replace (sg * Z.abs m * (B * (C * B)) - sg * mm * (A * (C * B))) with (- sg * ((mm * C * A - Z.abs m * (C * B)) * B)) by ring.
  rewrite Z.abs_mul, Z.abs_mul. assert (Z.abs (- sg) = 1) as -> by lia. rewrite (Z.abs_eq B) by lia.
  set (X := Z.abs (mm * C * A - Z.abs m * (C * B))) in *. nia.
Qed.

Lemma fixed_digits_len n : forall z, length (fixed_digits n z) = n.
Proof. induction n as [|n IH]; intro z; cbn [fixed_digits]; [reflexivity|]. rewrite app_length, IH. cbn. lia. Qed.

Section RP.
Variable P : rparams.
Variable fl : wflags.
Hypothesis Hbuf : (27 <= rbuf P)%nat.
Hypothesis Hmax : (1 <= rmax P)%nat.

Lemma real_back m k kk : Z.abs m < (2 ^ 63 - 1) * 10 ^ Z.of_nat k -> stops kk -> (rrefs P = true -> num_safe (rbuf P) kk) ->
  exists o s, parse P (lead fl ++ real_text m k ++ kk) = Ok (Some o, s) /\ reads (rbuf P) s kk /\ near_real m k o.
Proof.
  intros Hm Hst Hsafe. rewrite real_text_ftext. set (u := micro m k). set (neg := m <? 0).
  assert (Hu : 0 <= u) by apply micro_nonneg.
  assert (Hub : u / 10 ^ 6 < 2 ^ 63).
  { apply Z.div_lt_upper_bound; [lia|]. pose proof (micro_err m k) as E. fold u in E.
    assert (0 < 10 ^ Z.of_nat k) by (apply Z.pow_pos_nonneg; lia). nia. }
  destruct (real_text_regular neg u Hu) as (R1 & R2 & R3).
  assert (Len : (length (ftext neg u) <= rbuf P)%nat).
  { assert (L1 : (length (dec (u / 10 ^ 6)) <= 19)%nat).
    { apply dec_len; [|lia]. split; [apply Z.div_pos; lia|]. eapply Z.lt_trans; [exact Hub|]. vm_compute. reflexivity. }
    destruct (ftext_spec neg u Hu) as [(_ & E)|(j & f & Hj & _ & _ & _ & E)]; rewrite E, !app_length.
    - destruct neg; cbn [length]; lia.
    - rewrite fixed_digits_len. destruct neg; cbn [length]; lia. }
  assert (T : tok (rbuf P) (lead fl ++ ftext neg u ++ kk) = Some ((TLit, ftext neg u), kk)).
  { rewrite tok_lead. apply tok_lit; auto. }
  assert (PARSE : forall o s, determine (rbuf P) (rrefs P) (TLit, ftext neg u) (mk_tst [] kk) = Ok (DVal o, s) ->
     parse P (lead fl ++ ftext neg u ++ kk) = Ok (Some o, s)).
  { intros o s Hd. rewrite <- (parse_any_fuel P _ (S (S (3 * length (lead fl ++ ftext neg u ++ kk) + 3)))) by lia.
    unfold read_next, next_token. cbn [tq tin]. rewrite T, read_variant_S.
    rewrite (proj2 (Nat.ltb_ge (rmax P) 1)) by lia. rewrite Hd. cbn [bind]. rewrite read_data_S. reflexivity. }
  destruct (number_not_keyword _ R3) as (N1 & N2 & N3).
  destruct (ftext_read neg u Hu) as [(Hz & Hk & Hc)|(j & f & Hj & Hf & Hu' & Hf2 & Hk & Hc)].
  - assert (Hi : int64_ok ((if neg then -1 else 1) * (u / 10 ^ 6)) = true).
    { assert (0 <= u / 10 ^ 6) by (apply Z.div_pos; lia). unfold int64_ok.
      apply andb_true_iff; split; [apply Z.leb_le|apply Z.ltb_lt]; destruct neg; lia. }
    cbv zeta in Hc. rewrite Hi in Hc.
    assert (exists s, determine_number (rbuf P) (rrefs P) ((if neg then -1 else 1) * (u / 10 ^ 6)) (mk_tst [] kk)
        = (DVal (ONum ((if neg then -1 else 1) * (u / 10 ^ 6))), s) /\ reads (rbuf P) s kk) as (s & Hd & Hs).
    { destruct (rrefs P) eqn:ER.
      - destruct (determine_number_safe (rbuf P) true ((if neg then -1 else 1) * (u / 10 ^ 6)) (mk_tst [] kk) kk) as (s & A & B);
          [lia|constructor|auto|cbn; lia|]. eauto.
      - eexists; split; [reflexivity|constructor]. }
    exists (ONum ((if neg then -1 else 1) * (u / 10 ^ 6))), s. split; [|split; [exact Hs|]].
    + apply PARSE. unfold determine. rewrite N1, N2, N3, Hk, Hc, Hd. reflexivity.
    + exists ((if neg then -1 else 1) * (u / 10 ^ 6)), 0%nat. split; [auto|].
      apply (micro_near m k u); [reflexivity| |lia].
      change (Z.of_nat (6 - 0)) with 6. pose proof (Z.div_mod u (10 ^ 6) ltac:(lia)). lia.
  - exists (OReal ((if neg then -1 else 1) * (u / 10 ^ 6 * 10 ^ Z.of_nat j + f)) j), (mk_tst [] kk).
    split; [|split; [constructor|]].
    + apply PARSE. unfold determine. rewrite N1, N2, N3, Hk, Hc. reflexivity.
    + eexists _, j. split; [left; reflexivity|].
      apply (micro_near m k u); [reflexivity|exact Hu'|lia].
Qed.
End RP.
