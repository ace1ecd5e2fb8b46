(** Lemmas about Unicode conversions and text strings. *)
From Coq Require Import String.
From Verif Require Import Base BitLemmas TokModel WriteModel FilterPropLemmas ChainProofs TextModel TextSpec.
Local Open Scope Z_scope.

Ltac zdm := Z.div_mod_to_equations; lia.

Lemma land_mask a n : 0 <= n -> Z.land a (2 ^ n - 1) = a mod 2 ^ n.
Proof. intro H. rewrite <- Z.land_ones by exact H. f_equal. rewrite Z.ones_equiv. lia. Qed.
Lemma lor_tag t b n : 0 <= n -> 0 <= b < 2 ^ n -> Z.lor b (t * 2 ^ n) = t * 2 ^ n + b.
Proof. intros. rewrite Z.lor_comm. apply lor_add; assumption. Qed.

Lemma valid_iff cp : 0 <= cp -> code_point_valid cp = true <-> scalar cp.
Proof. intro H. unfold code_point_valid, is_surrogate, scalar. lia. Qed.

(** ** UTF-8 *)
Lemma append_spec cp : scalar cp -> utf8_append cp = Ok (utf8_char cp).
Proof.
  intros Hs. pose proof Hs as [Hr _]. assert (V : code_point_valid cp = true) by (apply valid_iff; [lia|exact Hs]).
  unfold utf8_append, utf8_char. rewrite V. cbn [negb].
  rewrite !Z.shiftr_div_pow2 by lia.
  change 63 with (2 ^ 6 - 1). rewrite !land_mask by lia.
  change 128 with (2 * 2 ^ 6) at 2 3 4 5 6 7. change (cp <? 2 * 2 ^ 6) with (cp <? 128).
  change (2 ^ 6) with 64. change (2 ^ 12) with 4096. change (2 ^ 18) with 262144.
  destruct (Z.ltb_spec cp 128). { rewrite u8_id; [reflexivity|unfold is_byte; lia]. }
  assert (T : forall x, u8 (Z.lor (x mod 64) (2 * 64)) = 128 + x mod 64).
  { intro x. change (2 * 64) with (2 * 2 ^ 6). rewrite lor_tag by (change (2 ^ 6) with 64; zdm).
    change (2 * 2 ^ 6) with 128. apply u8_id. unfold is_byte. zdm. }
  rewrite !T.
  destruct (Z.ltb_spec cp 2048).
  { change 192 with (6 * 2 ^ 5) at 1. rewrite lor_tag by (change (2 ^ 5) with 32; zdm).
    change (6 * 2 ^ 5) with 192. rewrite u8_id by (unfold is_byte; zdm). reflexivity. }
  destruct (Z.ltb_spec cp 65536).
  { change 224 with (14 * 2 ^ 4) at 1. rewrite lor_tag by (change (2 ^ 4) with 16; zdm).
    change (14 * 2 ^ 4) with 224. rewrite u8_id by (unfold is_byte; zdm). reflexivity. }
  change 240 with (30 * 2 ^ 3) at 1. rewrite lor_tag by (change (2 ^ 3) with 8; zdm).
  change (30 * 2 ^ 3) with 240. rewrite u8_id by (unfold is_byte; zdm). reflexivity.
Qed.

Lemma trail_iff c : 0 <= c -> is_trail c = true <-> 128 <= c < 192.
Proof. intro H. unfold is_trail. rewrite Z.shiftr_div_pow2 by lia. change (2 ^ 6) with 64. rewrite Z.eqb_eq. zdm. Qed.

Lemma seqlen_1 c : c < 128 -> sequence_length c = 1.
Proof. intro H. unfold sequence_length. destruct (Z.ltb_spec c 128); [reflexivity|lia]. Qed.
Lemma seqlen_byte c : is_byte c -> sequence_length c =
  if c <? 128 then 1 else if c <? 192 then 0 else if c <? 224 then 2 else if c <? 240 then 3 else if c <? 248 then 4 else 0.
Proof.
  intro H. apply Z.eqb_eq. revert c H. apply byte_check. vm_compute. reflexivity.
Qed.

(** masked arithmetic of the decoder *)
Lemma dec_hi c n m : 0 <= n -> 0 <= m -> Z.land (Z.shiftl c n) (2 ^ m - 1) = (c * 2 ^ n) mod 2 ^ m.
Proof. intros. rewrite land_mask, Z.shiftl_mul_pow2 by lia. reflexivity. Qed.
Lemma land63 c : Z.land c 63 = c mod 64.
Proof. change 63 with (2 ^ 6 - 1). apply land_mask. lia. Qed.
Lemma hi6_11 c : Z.land (Z.shiftl c 6) 2047 = (c mod 32) * 64.
Proof. change 2047 with (2 ^ 11 - 1). rewrite dec_hi by lia. change (2 ^ 6) with 64. change (2 ^ 11) with (32 * 64). rewrite Z.mul_mod_distr_r by lia. reflexivity. Qed.
Lemma hi12_16 c : Z.land (Z.shiftl c 12) 65535 = (c mod 16) * 4096.
Proof. change 65535 with (2 ^ 16 - 1). rewrite dec_hi by lia. change (2 ^ 12) with 4096. change (2 ^ 16) with (16 * 4096). rewrite Z.mul_mod_distr_r by lia. reflexivity. Qed.
Lemma hi6_12 c : Z.land (Z.shiftl c 6) 4095 = (c mod 64) * 64.
Proof. change 4095 with (2 ^ 12 - 1). rewrite dec_hi by lia. change (2 ^ 6) with 64. change (2 ^ 12) with (64 * 64). rewrite Z.mul_mod_distr_r by lia. reflexivity. Qed.
Lemma hi18_21 c : Z.land (Z.shiftl c 18) 2097151 = (c mod 8) * 262144.
Proof. change 2097151 with (2 ^ 21 - 1). rewrite dec_hi by lia. change (2 ^ 18) with 262144. change (2 ^ 21) with (8 * 262144). rewrite Z.mul_mod_distr_r by lia. reflexivity. Qed.
Lemma hi12_18 c : Z.land (Z.shiftl c 12) 262143 = (c mod 64) * 4096.
Proof. change 262143 with (2 ^ 18 - 1). rewrite dec_hi by lia. change (2 ^ 12) with 4096. change (2 ^ 18) with (64 * 4096). rewrite Z.mul_mod_distr_r by lia. reflexivity. Qed.

Lemma utf8_char_bytes cp : scalar cp -> bytes_ok (utf8_char cp) /\ utf8_char cp <> [].
Proof.
  intros [H _]. unfold utf8_char, bytes_ok, is_byte.
  destruct (Z.ltb_spec cp 128); [split; [repeat constructor; zdm|discriminate]|].
  destruct (Z.ltb_spec cp 2048); [split; [repeat constructor; zdm|discriminate]|].
  destruct (Z.ltb_spec cp 65536); split; try discriminate; repeat constructor; zdm.
Qed.

Lemma next_spec cp r : scalar cp -> utf8_next (utf8_char cp ++ r) = Ok (cp, r).
Proof.
  intro Hs. pose proof Hs as [Hr _]. assert (V : code_point_valid cp = true) by (apply valid_iff; [lia|exact Hs]).
  unfold utf8_char.
  assert (TR : forall x, is_trail (128 + x mod 64) = true) by (intro x; apply trail_iff; zdm).
  assert (TM : forall x, (128 + x mod 64) mod 64 = x mod 64).
  { intro x. change 128 with (2 * 64). rewrite Z.add_comm, Z.mod_add by lia. apply Z.mod_mod. lia. }
  destruct (Z.ltb_spec cp 128); [|destruct (Z.ltb_spec cp 2048); [|destruct (Z.ltb_spec cp 65536)]];
    cbn [app]; unfold utf8_next.
  - rewrite seqlen_1 by assumption. change (1 =? 0) with false. unfold get_sequence. change (1 =? 1) with true.
    cbn [bind]. rewrite V. unfold overlong. replace (cp <? 128) with true by lia. reflexivity.
  - assert (B : is_byte (192 + cp / 64)) by (unfold is_byte; zdm).
    assert (SL : sequence_length (192 + cp / 64) = 2).
    { rewrite (seqlen_byte _ B). assert (0 <= cp / 64 < 32) by zdm.
      replace (192 + cp / 64 <? 128) with false by lia. replace (192 + cp / 64 <? 192) with false by lia.
      replace (192 + cp / 64 <? 224) with true by lia. reflexivity. }
    rewrite SL. change (2 =? 0) with false. unfold get_sequence. change (2 =? 1) with false. change (2 =? 2) with true.
    rewrite TR. cbn [negb bind]. rewrite hi6_11, land63, TM.
    replace ((192 + cp / 64) mod 32 * 64 + cp mod 64) with cp by zdm.
    rewrite V. unfold overlong. replace (cp <? 128) with false by lia. replace (cp <? 2048) with true by lia. reflexivity.
  - assert (B : is_byte (224 + cp / 4096)) by (unfold is_byte; zdm).
    assert (SL : sequence_length (224 + cp / 4096) = 3).
    { rewrite (seqlen_byte _ B). assert (0 <= cp / 4096 < 16) by zdm.
      replace (224 + cp / 4096 <? 128) with false by lia. replace (224 + cp / 4096 <? 192) with false by lia.
      replace (224 + cp / 4096 <? 224) with false by lia. replace (224 + cp / 4096 <? 240) with true by lia. reflexivity. }
    rewrite SL. change (3 =? 0) with false. unfold get_sequence. change (3 =? 1) with false. change (3 =? 2) with false.
    change (3 =? 3) with true. rewrite !TR. cbn [negb bind]. rewrite hi12_16, hi6_12, land63, !TM.
    replace ((224 + cp / 4096) mod 16 * 4096 + (cp / 64) mod 64 * 64 + cp mod 64) with cp by zdm.
    rewrite V. unfold overlong. replace (cp <? 128) with false by lia. replace (cp <? 2048) with false by lia.
    replace (cp <? 65536) with true by lia. reflexivity.
  - assert (B : is_byte (240 + cp / 262144)) by (unfold is_byte; zdm).
    assert (SL : sequence_length (240 + cp / 262144) = 4).
    { rewrite (seqlen_byte _ B). assert (0 <= cp / 262144 < 8) by zdm.
      replace (240 + cp / 262144 <? 128) with false by lia. replace (240 + cp / 262144 <? 192) with false by lia.
      replace (240 + cp / 262144 <? 224) with false by lia. replace (240 + cp / 262144 <? 240) with false by lia.
      replace (240 + cp / 262144 <? 248) with true by lia. reflexivity. }
    rewrite SL. change (4 =? 0) with false. unfold get_sequence. change (4 =? 1) with false. change (4 =? 2) with false.
    change (4 =? 3) with false. rewrite !TR. cbn [negb bind]. rewrite hi18_21, hi12_18, hi6_12, land63, !TM.
    replace ((240 + cp / 262144) mod 8 * 262144 + (cp / 4096) mod 64 * 4096 + (cp / 64) mod 64 * 64 + cp mod 64) with cp by zdm.
    rewrite V. unfold overlong. replace (cp <? 128) with false by lia. replace (cp <? 2048) with false by lia.
    replace (cp <? 65536) with false by lia. reflexivity.
Qed.

(** the converse: only well-formed sequences are accepted *)
Lemma next_inv l cp r : bytes_ok l -> utf8_next l = Ok (cp, r) -> scalar cp /\ l = utf8_char cp ++ r.
Proof.
  intros B. unfold utf8_next. destruct l as [|c l]; [discriminate|].
  pose proof (Forall_inv B) as Bc. pose proof (Forall_inv_tail B) as Bl. rewrite (seqlen_byte c Bc).
  unfold is_byte in Bc.
  destruct (Z.ltb_spec c 128).
  { change (1 =? 0) with false. unfold get_sequence. change (1 =? 1) with true. cbn [bind].
    destruct (code_point_valid c) eqn:V; [|discriminate]. destruct (overlong c 1); [discriminate|].
    intro E. apply ok_inj in E. injection E as <- <-. apply valid_iff in V; [|lia]. split; [exact V|].
    unfold utf8_char. replace (c <? 128) with true by lia. reflexivity. }
  destruct (Z.ltb_spec c 192); [discriminate|].
  destruct (Z.ltb_spec c 224).
  { change (2 =? 0) with false. unfold get_sequence. change (2 =? 1) with false. change (2 =? 2) with true.
    destruct l as [|c1 l]; [discriminate|]. pose proof (Forall_inv Bl) as B1. unfold is_byte in B1.
    destruct (is_trail c1) eqn:T1; [|discriminate]. apply trail_iff in T1; [|lia].
    cbn [negb bind]. rewrite hi6_11, land63. set (x := c mod 32 * 64 + c1 mod 64).
    destruct (code_point_valid x) eqn:V; [|discriminate]. destruct (overlong x 2) eqn:O; [discriminate|].
    intro E. apply ok_inj in E. injection E as <- <-.
    assert (X : x = (c - 192) * 64 + (c1 - 128)) by (unfold x; zdm).
    apply valid_iff in V; [|lia]. split; [exact V|].
    unfold overlong in O. change (2 =? 1) with false in O. change (2 =? 2) with true in O. change (2 =? 3) with false in O. cbn [negb] in O.
    unfold utf8_char. destruct (x <? 128) eqn:X1; [discriminate|]. destruct (x <? 2048) eqn:X2.
    - rewrite X. cbn [app]. f_equal; [zdm|f_equal; zdm].
    - lia. }
  destruct (Z.ltb_spec c 240).
  { change (3 =? 0) with false. unfold get_sequence. change (3 =? 1) with false. change (3 =? 2) with false. change (3 =? 3) with true.
    destruct l as [|c1 l]; [discriminate|]. pose proof (Forall_inv Bl) as B1. unfold is_byte in B1.
    destruct (is_trail c1) eqn:T1; [|discriminate]. apply trail_iff in T1; [|lia]. cbn [negb].
    destruct l as [|c2 l]; [discriminate|]. pose proof (Forall_inv (Forall_inv_tail Bl)) as B2. unfold is_byte in B2.
    destruct (is_trail c2) eqn:T2; [|discriminate]. apply trail_iff in T2; [|lia].
    cbn [negb bind]. rewrite hi12_16, hi6_12, land63. set (x := c mod 16 * 4096 + c1 mod 64 * 64 + c2 mod 64).
    destruct (code_point_valid x) eqn:V; [|discriminate]. destruct (overlong x 3) eqn:O; [discriminate|].
    intro E. apply ok_inj in E. injection E as <- <-.
    assert (X : x = (c - 224) * 4096 + (c1 - 128) * 64 + (c2 - 128)) by (unfold x; zdm).
    apply valid_iff in V; [|lia]. split; [exact V|].
    unfold overlong in O. change (3 =? 1) with false in O. change (3 =? 2) with false in O. change (3 =? 3) with true in O. cbn [negb] in O.
    unfold utf8_char. destruct (x <? 128) eqn:X1; [discriminate|]. destruct (x <? 2048) eqn:X2; [discriminate|].
    destruct (x <? 65536) eqn:X3; [|lia].
    rewrite X. cbn [app]. f_equal; [zdm|f_equal; [zdm|f_equal; zdm]]. }
  destruct (Z.ltb_spec c 248); [|discriminate].
  change (4 =? 0) with false. unfold get_sequence. change (4 =? 1) with false. change (4 =? 2) with false. change (4 =? 3) with false.
  destruct l as [|c1 l]; [discriminate|]. pose proof (Forall_inv Bl) as B1. unfold is_byte in B1.
  destruct (is_trail c1) eqn:T1; [|discriminate]. apply trail_iff in T1; [|lia]. cbn [negb].
  destruct l as [|c2 l]; [discriminate|]. pose proof (Forall_inv (Forall_inv_tail Bl)) as B2. unfold is_byte in B2.
  destruct (is_trail c2) eqn:T2; [|discriminate]. apply trail_iff in T2; [|lia]. cbn [negb].
  destruct l as [|c3 l]; [discriminate|]. pose proof (Forall_inv (Forall_inv_tail (Forall_inv_tail Bl))) as B3. unfold is_byte in B3.
  destruct (is_trail c3) eqn:T3; [|discriminate]. apply trail_iff in T3; [|lia].
  cbn [negb bind]. rewrite hi18_21, hi12_18, hi6_12, land63.
  set (x := c mod 8 * 262144 + c1 mod 64 * 4096 + c2 mod 64 * 64 + c3 mod 64).
  destruct (code_point_valid x) eqn:V; [|discriminate]. destruct (overlong x 4) eqn:O; [discriminate|].
  intro E. apply ok_inj in E. injection E as <- <-.
  assert (X : x = (c - 240) * 262144 + (c1 - 128) * 4096 + (c2 - 128) * 64 + (c3 - 128)) by (unfold x; zdm).
  apply valid_iff in V; [|lia]. split; [exact V|].
  unfold overlong in O. change (4 =? 1) with false in O. change (4 =? 2) with false in O. change (4 =? 3) with false in O. cbn [negb] in O.
  unfold utf8_char. destruct (x <? 128) eqn:X1; [discriminate|]. destruct (x <? 2048) eqn:X2; [discriminate|].
  destruct (x <? 65536) eqn:X3; [discriminate|].
  rewrite X. cbn [app]. f_equal; [zdm|f_equal; [zdm|f_equal; [zdm|f_equal; zdm]]].
Qed.

(** ** Whole texts *)
Lemma char_len cp : scalar cp -> (1 <= length (utf8_char cp))%nat.
Proof. intro H. destruct (utf8_char_bytes cp H) as [_ N]. destruct (utf8_char cp); [congruence|cbn; lia]. Qed.
Lemma utf8_text_cons cp l : utf8_text (cp :: l) = utf8_char cp ++ utf8_text l.
Proof. reflexivity. Qed.
Lemma text_len l : scalars l -> (length l <= length (utf8_text l))%nat.
Proof.
  intro H. induction H as [|cp l Hc Hl IH]; [cbn; lia|]. rewrite utf8_text_cons, app_length. cbn [length].
  pose proof (char_len cp Hc). lia.
Qed.
Lemma text_bytes l : scalars l -> bytes_ok (utf8_text l).
Proof.
  intro H. induction H as [|cp l Hc Hl IH]; [constructor|]. rewrite utf8_text_cons. apply bytes_ok_app.
  split; [apply utf8_char_bytes; exact Hc|exact IH].
Qed.
Lemma text_nil cp l : scalar cp -> utf8_text (cp :: l) <> [].
Proof. intros H E. rewrite utf8_text_cons in E. apply app_eq_nil in E. destruct (utf8_char_bytes cp H). tauto. Qed.

(** one step of a loop over a text: [match l with [] => .. | _ => ..] *)
Lemma fold_step f l : l <> [] -> utf8_fold (S f) l = do (cp, r) <- utf8_next l; do cps <- utf8_fold f r; Ok (cp :: cps).
Proof. destruct l; [congruence|reflexivity]. Qed.
Lemma fold_text l : scalars l -> forall f, (length l <= f)%nat -> utf8_fold f (utf8_text l) = Ok l.
Proof.
  intro H. induction H as [|cp l Hc Hl IH]; intros f Hf; [destruct f; reflexivity|].
  destruct f as [|f]; [cbn in Hf; lia|]. rewrite fold_step by (apply text_nil; exact Hc).
  rewrite utf8_text_cons, next_spec by exact Hc. cbn [bind]. rewrite IH by (cbn in Hf; lia). reflexivity.
Qed.
Lemma points_text l : scalars l -> utf8_points (utf8_text l) = Ok l.
Proof. intro H. apply fold_text; [exact H|apply text_len; exact H]. Qed.
Lemma fold_inv f : forall l cps, bytes_ok l -> utf8_fold f l = Ok cps -> scalars cps /\ l = utf8_text cps.
Proof.
  induction f as [|f IH]; intros l cps B H.
  - destruct l; cbn [utf8_fold] in H; [|discriminate]. apply ok_inj in H. subst. split; [constructor|reflexivity].
  - destruct l as [|c l]; [cbn [utf8_fold] in H; apply ok_inj in H; subst; split; [constructor|reflexivity]|].
    rewrite fold_step in H by discriminate. apply bind_ok in H. destruct H as ([cp r] & E & H). cbn beta iota in H.
    apply bind_ok in H. destruct H as (cps' & E' & H). apply ok_inj in H. subst cps.
    apply next_inv in E; [|exact B]. destruct E as [S E]. rewrite E in B |- *. apply bytes_ok_app in B.
    apply IH in E'; [|tauto]. destruct E' as [S' ->]. split; [constructor; assumption|reflexivity].
Qed.
Lemma points_exact l cps : bytes_ok l -> utf8_points l = Ok cps <-> scalars cps /\ l = utf8_text cps.
Proof. intro B. split; [apply fold_inv; exact B|]. intros [S ->]. apply points_text. exact S. Qed.

(** ** UTF-16 *)
Lemma to16_spec cp : scalar cp -> to16 cp = utf16_char cp.
Proof.
  intros [H N]. unfold to16, utf16_char. destruct (Z.ltb_spec cp 65536).
  - replace (65535 <? cp) with false by lia. unfold u16. rewrite Z.mod_small by lia. reflexivity.
  - replace (65535 <? cp) with true by lia. change 1023 with (2 ^ 10 - 1). rewrite land_mask, Z.shiftr_div_pow2 by lia.
    change (2 ^ 10) with 1024. unfold u16. change (2 ^ 16) with 65536. f_equal; [|f_equal].
    + rewrite Z.mod_small by zdm. zdm.
    + rewrite Z.mod_small by zdm. zdm.
Qed.
Definition unit16 (u : Z) : Prop := 0 <= u < 65536.
Lemma utf16_units cp : scalar cp -> Forall unit16 (utf16_char cp).
Proof.
  intros [H N]. unfold utf16_char. destruct (Z.ltb_spec cp 65536); repeat constructor; unfold unit16; zdm.
Qed.
Lemma utf16_all_units l : scalars l -> Forall unit16 (flat_map utf16_char l).
Proof.
  intro H. induction H as [|cp l Hc Hl IH]; [constructor|]. cbn [flat_map]. apply Forall_app. split; [apply utf16_units; exact Hc|exact IH].
Qed.
Lemma utf16to8_char cp r o : scalar cp -> utf16to8 r = Ok o -> utf16to8 (utf16_char cp ++ r) = Ok (utf8_char cp ++ o).
Proof.
  intros S E. pose proof S as [H N]. unfold utf16_char. destruct (Z.ltb_spec cp 65536); cbn [app utf16to8].
  - assert (L : is_lead_surrogate cp = false) by (unfold is_lead_surrogate; lia).
    assert (T : is_trail_surrogate cp = false) by (unfold is_trail_surrogate; lia).
    rewrite L, T, append_spec by exact S. cbn [bind]. rewrite E. reflexivity.
  - assert (L : is_lead_surrogate (55296 + (cp - 65536) / 1024) = true).
    { unfold is_lead_surrogate. assert (0 <= (cp - 65536) / 1024 <= 1023) by zdm. lia. }
    assert (T : is_trail_surrogate (56320 + (cp - 65536) mod 1024) = true).
    { unfold is_trail_surrogate. assert (0 <= (cp - 65536) mod 1024 <= 1023) by zdm. lia. }
    rewrite L, T. rewrite Z.shiftl_mul_pow2 by lia. change (2 ^ 10) with 1024.
    assert (X : u32 ((55296 + (cp - 65536) / 1024) * 1024 + (56320 + (cp - 65536) mod 1024) + 4238353408) = cp).
    { unfold u32. symmetry. apply Z.mod_unique with 1; [left; lia|]. change (2 ^ 32) with 4294967296. zdm. }
    rewrite X, append_spec by exact S. cbn [bind]. rewrite E. reflexivity.
Qed.
Lemma utf16to8_text l : scalars l -> utf16to8 (flat_map utf16_char l) = Ok (utf8_text l).
Proof.
  intro H. induction H as [|cp l Hc Hl IH]; [reflexivity|]. cbn [flat_map]. rewrite utf8_text_cons.
  apply utf16to8_char; assumption.
Qed.
Lemma units_be_back us : Forall unit16 us -> units_be (flat_map (fun u => [u / 256; u mod 256]) us) = Ok us.
Proof.
  intro H. induction H as [|u us Hu Hus IH]; [reflexivity|]. cbn [flat_map app units_be]. rewrite IH. cbn [bind]. do 2 f_equal.
  unfold unit16 in Hu. rewrite Z.shiftl_mul_pow2 by lia. rewrite lor_add by (change (2 ^ 8) with 256; zdm). change (2 ^ 8) with 256. zdm.
Qed.
Lemma units_le_back us : Forall unit16 us -> units_le (flat_map (fun u => [u mod 256; u / 256]) us) = Ok us.
Proof.
  intro H. induction H as [|u us Hu Hus IH]; [reflexivity|]. cbn [flat_map app units_le]. rewrite IH. cbn [bind]. do 2 f_equal.
  unfold unit16 in Hu. rewrite Z.shiftl_mul_pow2 by lia. rewrite lor_add by (change (2 ^ 8) with 256; zdm). change (2 ^ 8) with 256. zdm.
Qed.
Lemma flat_map_to16 l : scalars l -> flat_map to16 l = flat_map utf16_char l.
Proof.
  intro H. induction H as [|cp l Hc Hl IH]; [reflexivity|]. cbn [flat_map]. rewrite to16_spec, IH by exact Hc. reflexivity.
Qed.
Lemma utf8to16_text l : scalars l -> utf8to16 (utf8_text l) = Ok (flat_map utf16_char l).
Proof. intro H. unfold utf8to16. rewrite points_text by exact H. cbn [bind]. rewrite flat_map_to16 by exact H. reflexivity. Qed.
Lemma read_be_text l : scalars l -> read_utf16be (utf16be_text l) = Ok (utf8_text l).
Proof.
  intro H. unfold read_utf16be, utf16be_text. rewrite units_be_back by (apply utf16_all_units; exact H). cbn [bind].
  apply utf16to8_text. exact H.
Qed.
Lemma utf16be_bytes l : scalars l -> bytes_ok (utf16be_text l).
Proof.
  intro H. unfold utf16be_text. pose proof (utf16_all_units l H) as U. revert U. generalize (flat_map utf16_char l).
  intros us U. induction U as [|u us Hu _ IH]; [constructor|]. cbn [flat_map app]. unfold unit16 in Hu.
  repeat constructor; try zdm. exact IH.
Qed.

(** ** PDFDocEncoding *)
Lemma doc_code_std b : is_byte b -> doc_code b =
  match std_doc b with Some cp => if b =? 22 then 23 else cp | None => 0 end.
Proof. intro H. apply Z.eqb_eq. revert b H. apply byte_check. vm_compute. reflexivity. Qed.

Lemma fold_find cp (es : list (Z * Z)) : forall acc,
  fold_left (fun acc e => if fst e =? cp then Some (snd e) else acc) es acc = acc \/
  exists b, fold_left (fun acc e => if fst e =? cp then Some (snd e) else acc) es acc = Some b /\ In (cp, b) es.
Proof.
  induction es as [|[x y] es IH]; intro acc; [left; reflexivity|]. cbn [fold_left fst snd].
  destruct (Z.eqb_spec x cp) as [->|N].
  - destruct (IH (Some y)) as [E|(b & E & I)]; right.
    + exists y. split; [exact E|left; reflexivity].
    + exists b. split; [exact E|right; exact I].
  - destruct (IH acc) as [E|(b & E & I)]; [left; exact E|right; exists b; split; [exact E|right; exact I]].
Qed.
Definition entry_ok (e : Z * Z) : bool :=
  ((fst e =? 23) && (snd e =? 22)) || (is_byteb (snd e) && negb (snd e =? 22) && match std_doc (snd e) with Some c => c =? fst e | None => false end).
Lemma entries_ok : forallb entry_ok doc_entries = true.
Proof. vm_compute. reflexivity. Qed.
Lemma find_23 : doc_find 23 = Some 23.
Proof. vm_compute. reflexivity. Qed.
Lemma doc_find_back b cp : is_byte b -> b <> 22 -> std_doc b = Some cp -> doc_find cp = Some b.
Proof.
  intros B N E.
  pose proof (byte_check (fun b => (b =? 22) || match std_doc b with
                                    | Some cp => match doc_find cp with Some x => x =? b | None => false end
                                    | None => true end) ltac:(vm_compute; reflexivity) b B) as C.
  cbv beta in C. rewrite E in C. destruct (doc_find cp) as [x|]; [|lia]. apply orb_true_iff in C.
  destruct C as [C|C]; [lia|]. apply Z.eqb_eq in C. subst. reflexivity.
Qed.
Lemma doc_find_inv cp b : doc_find cp = Some b -> is_byte b /\ b <> 22 /\ std_doc b = Some cp.
Proof.
  intro H. destruct (Z.eq_dec cp 23) as [->|N].
  - rewrite find_23 in H. injection H as <-. split; [unfold is_byte; lia|split; [lia|reflexivity]].
  - destruct (fold_find cp doc_entries None) as [E|(b' & E & I)].
    + unfold doc_find in H. rewrite E in H. discriminate H.
    + unfold doc_find in H. rewrite E in H. injection H as ->.
      pose proof (proj1 (forallb_forall _ _) entries_ok _ I) as K. unfold entry_ok in K. cbn [fst snd] in K.
      apply orb_true_iff in K. destruct K as [K|K]; [lia|].
      rewrite !andb_true_iff in K. destruct K as [[K1 K2] K3]. apply is_byteb_iff in K1.
      destruct (std_doc b) as [c|]; [|discriminate]. apply Z.eqb_eq in K3. subst c. repeat split; try apply K1. lia.
Qed.
Lemma std_doc_range b cp : is_byte b -> std_doc b = Some cp -> 0 <= cp < 55296 \/ 57344 <= cp <= 65535.
Proof.
  intros B E.
  pose proof (byte_check (fun b => match std_doc b with Some cp => ((0 <=? cp) && (cp <? 55296)) || ((57344 <=? cp) && (cp <=? 65535)) | None => true end) ltac:(vm_compute; reflexivity) b B) as C.
  cbv beta in C. rewrite E in C. lia.
Qed.
Lemma std_doc_scalar b cp : is_byte b -> std_doc b = Some cp -> scalar cp.
Proof. intros B E. pose proof (std_doc_range b cp B E). unfold scalar. lia. Qed.
Lemma find_limit cp : (if 65535 <? cp then None else doc_find cp) = doc_find cp.
Proof.
  destruct (Z.ltb_spec 65535 cp); [|reflexivity]. destruct (doc_find cp) as [b|] eqn:E; [|reflexivity].
  apply doc_find_inv in E. destruct E as (B & _ & E). pose proof (std_doc_range b cp B E). lia.
Qed.

(** loops over texts *)
Fixpoint find_all (l : list Z) : option (list Z) :=
  match l with
  | [] => Some []
  | cp :: r => match doc_find cp with None => None | Some b => match find_all r with None => None | Some s => Some (b :: s) end end
  end.
Lemma try_step f l : l <> [] -> try_doc (S f) l =
  do (cp, r) <- utf8_next l;
  match (if 65535 <? cp then None else doc_find cp) with
  | None => Ok None
  | Some b => do o <- try_doc f r; Ok (match o with None => None | Some s => Some (b :: s) end)
  end.
Proof. destruct l; [congruence|reflexivity]. Qed.
Lemma try_text l : scalars l -> forall f, (length l <= f)%nat -> try_doc f (utf8_text l) = Ok (find_all l).
Proof.
  intro H. induction H as [|cp l Hc Hl IH]; intros f Hf; [destruct f; reflexivity|].
  destruct f as [|f]; [cbn in Hf; lia|]. rewrite try_step by (apply text_nil; exact Hc).
  rewrite utf8_text_cons, next_spec by exact Hc. cbn [bind]. rewrite find_limit. cbn [find_all].
  destruct (doc_find cp); [|reflexivity]. rewrite IH by (cbn in Hf; lia). cbn [bind]. destruct (find_all l); reflexivity.
Qed.
Definition same_code (cp : Z) : bool := negb ((128 <=? cp) || negb (match doc_find cp with Some b => schar b | None => 0 end =? schar (u8 cp))).
Lemma check_step f a l : l <> [] -> check_doc (S f) a l =
  do (cp, r) <- utf8_next l;
  match (if 65535 <? cp then None else doc_find cp) with
  | None => Ok (false, false)
  | Some b => check_doc f (a && negb ((128 <=? cp) || negb (schar b =? schar (u8 cp)))) r
  end.
Proof. destruct l; [congruence|reflexivity]. Qed.
Lemma check_text l : scalars l -> forall f a, (length l <= f)%nat -> check_doc f a (utf8_text l) =
  Ok (match find_all l with None => (false, false) | Some _ => (true, a && forallb same_code l) end).
Proof.
  intro H. induction H as [|cp l Hc Hl IH]; intros f a Hf. { destruct f; cbn; rewrite andb_true_r; reflexivity. }
  destruct f as [|f]; [cbn in Hf; lia|]. rewrite check_step by (apply text_nil; exact Hc).
  rewrite utf8_text_cons, next_spec by exact Hc. cbn [bind]. rewrite find_limit. cbn [find_all forallb].
  unfold same_code at 1. destruct (doc_find cp) as [b|]; [|reflexivity]. rewrite IH by (cbn in Hf; lia).
  destruct (find_all l); [|reflexivity]. rewrite andb_assoc. reflexivity.
Qed.
Lemma find_all_encodes l : forall d, find_all l = Some d -> doc_encodes d l /\ Forall (fun b => b <> 22) d.
Proof.
  induction l as [|cp l IH]; intros d H; cbn [find_all] in H.
  - injection H as <-. split; constructor.
  - destruct (doc_find cp) as [b|] eqn:E; [|discriminate]. destruct (find_all l) as [s|] eqn:F; [|discriminate].
    injection H as <-. apply doc_find_inv in E. destruct (IH s eq_refl). split; constructor; try assumption; tauto.
Qed.
Lemma find_all_back d l : doc_encodes d l -> Forall (fun b => b <> 22) d -> find_all l = Some d.
Proof.
  intros H F. induction H as [|b cp d l [B E] H IH]; [reflexivity|]. cbn [find_all].
  rewrite (doc_find_back b cp B (Forall_inv F) E), IH by exact (Forall_inv_tail F). reflexivity.
Qed.
Lemma encodes_scalars d l : doc_encodes d l -> scalars l /\ bytes_ok d.
Proof.
  intro H. induction H as [|b cp d l [B E] H [IH1 IH2]]; [split; constructor|].
  split; constructor; try assumption. exact (std_doc_scalar b cp B E).
Qed.
Lemma doc_to_utf8_encodes d l : doc_encodes d l -> Forall (fun b => b <> 22) d -> exists a, doc_to_utf8 d = Ok (utf8_text l, a).
Proof.
  intros H F. induction H as [|b cp d l [B E] H IH]; [eexists; reflexivity|]. destruct (IH (Forall_inv_tail F)) as [a IHe].
  cbn [doc_to_utf8]. rewrite (doc_code_std b B), E. pose proof (Forall_inv F) as N. cbv beta in N. replace (b =? 22) with false by lia.
  rewrite append_spec by exact (std_doc_scalar b cp B E). cbn [bind]. rewrite IHe. cbn [bind]. eexists. reflexivity.
Qed.

(** ** Text strings *)
Definition marked (l : list Z) : bool :=
  beq (firstn 2 l) [254; 255] || beq (firstn 2 l) [255; 254] || beq (firstn 3 l) [239; 187; 191].

Lemma same_code_true cp : scalar cp -> same_code cp = true -> doc_find cp <> None -> doc_find cp = Some cp /\ cp < 128.
Proof.
  intros S H N. unfold same_code in H. destruct (doc_find cp) as [b|] eqn:E; [|congruence].
  apply negb_true_iff, orb_false_iff in H. destruct H as [H1 H2]. apply Z.leb_gt in H1.
  apply negb_false_iff, Z.eqb_eq in H2. destruct S as [S _]. split; [|lia]. f_equal.
  apply doc_find_inv in E. destruct E as (B & _ & _). unfold is_byte in B.
  rewrite u8_id in H2 by (unfold is_byte; lia). unfold schar in H2.
  destruct (Z.ltb_spec b 128); destruct (Z.ltb_spec cp 128); lia.
Qed.
Lemma find_all_same l : forall d, scalars l -> find_all l = Some d -> forallb same_code l = true -> d = utf8_text l.
Proof.
  induction l as [|cp l IH]; intros d S F A; cbn [find_all] in F.
  - injection F as <-. reflexivity.
  - destruct (doc_find cp) as [b|] eqn:E; [|discriminate]. destruct (find_all l) as [s|] eqn:G; [|discriminate].
    injection F as <-. cbn [forallb] in A. apply andb_true_iff in A. destruct A as [A1 A2].
    destruct (same_code_true cp (Forall_inv S) A1 ltac:(congruence)) as [X1 X2].
    rewrite utf8_text_cons. rewrite <- (IH s (Forall_inv_tail S) eq_refl A2).
    assert (b = cp) as -> by congruence. unfold utf8_char. replace (cp <? 128) with true by lia. reflexivity.
Qed.

(** what is written for a text: its PDFDocEncoding when every character has one, else the marked UTF-16BE *)
Lemma string_data_text l : scalars l -> exists p d, init_utf8 (utf8_text l) = Ok p /\ ps_hex p = false /\ ps_chars p = utf8_text l /\
  string_data p = Ok d /\
  match find_all l with Some s => d = s /\ ps_state p <> SUnicode | None => d = 254 :: 255 :: utf16be_text l /\ ps_state p = SUnicode end.
Proof.
  intro S. destruct l as [|cp l].
  { exists (mk_pstr SAscii [] false), []. cbn. repeat split; discriminate. }
  assert (N : utf8_text (cp :: l) <> []) by (apply text_nil; exact (Forall_inv S)).
  assert (I : init_utf8 (utf8_text (cp :: l)) =
    do (valid, ascii) <- check_doc (length (utf8_text (cp :: l))) true (utf8_text (cp :: l));
    Ok (mk_pstr (if valid then (if ascii then SAscii else SDoc) else SUnicode) (utf8_text (cp :: l)) false)).
  { unfold init_utf8. destruct (utf8_text (cp :: l)); [congruence|reflexivity]. }
  rewrite I, check_text by (try exact S; apply text_len; exact S).
  destruct (find_all (cp :: l)) as [s|] eqn:F; cbn [bind andb].
  - destruct (forallb same_code (cp :: l)) eqn:A.
    + exists (mk_pstr SAscii (utf8_text (cp :: l)) false), (utf8_text (cp :: l)). cbn [ps_hex ps_chars ps_state string_data].
      do 4 (split; [reflexivity|]). split; [|intro X; discriminate X]. symmetry. apply find_all_same; assumption.
    + exists (mk_pstr SDoc (utf8_text (cp :: l)) false), s. cbn [ps_hex ps_chars ps_state string_data].
      unfold try_utf8_to_doc. rewrite try_text by (try exact S; apply text_len; exact S). rewrite F. cbn [bind].
      repeat split; discriminate.
  - exists (mk_pstr SUnicode (utf8_text (cp :: l)) false), (254 :: 255 :: utf16be_text (cp :: l)).
    cbn [ps_hex ps_chars ps_state string_data]. rewrite utf8to16_text by exact S. cbn [bind]. repeat split.
Qed.

Lemma get_be l h : scalars l -> get_string (from_raw (254 :: 255 :: utf16be_text l) h) = Ok (utf8_text l).
Proof.
  intro S. unfold get_string, from_raw, evaluate. cbn [ps_state ps_chars].
  change (get_encoding (254 :: 255 :: utf16be_text l)) with EncBE. cbn [skipn]. rewrite read_be_text by exact S. reflexivity.
Qed.
Lemma get_le l h : scalars l ->
  get_string (from_raw (255 :: 254 :: flat_map (fun u => [u mod 256; u / 256]) (flat_map utf16_char l)) h) = Ok (utf8_text l).
Proof.
  intro S. unfold get_string, from_raw, evaluate. cbn [ps_state ps_chars].
  change (get_encoding (255 :: 254 :: flat_map (fun u => [u mod 256; u / 256]) (flat_map utf16_char l))) with EncLE.
  cbn [skipn]. unfold read_utf16le. rewrite units_le_back by (apply utf16_all_units; exact S). cbn [bind].
  rewrite utf16to8_text by exact S. reflexivity.
Qed.
Lemma get_8 t h : get_string (from_raw (239 :: 187 :: 191 :: t) h) = Ok t.
Proof. reflexivity. Qed.
Lemma enc_doc d : bytes_ok d -> marked d = false -> get_encoding d = EncDoc.
Proof.
  intros _ M. unfold marked in M. unfold get_encoding. apply orb_false_iff in M. destruct M as [M M3].
  apply orb_false_iff in M. destruct M as [M1 M2]. rewrite M1, M2, M3. reflexivity.
Qed.
Lemma get_doc d l h : doc_encodes d l -> Forall (fun b => b <> 22) d -> marked d = false ->
  get_string (from_raw d h) = Ok (utf8_text l).
Proof.
  intros E F M. destruct (encodes_scalars d l E) as [S B]. unfold get_string, from_raw, evaluate. cbn [ps_state ps_chars].
  rewrite enc_doc by assumption. destruct (doc_to_utf8_encodes d l E F) as [a ->]. reflexivity.
Qed.

(** characters whose PDFDocEncoding bytes look like a mark *)
Lemma marked_chars d l : doc_encodes d l -> marked d = true -> marked l = true.
Proof.
  intros E M.
  assert (K : forall b cp, is_byte b -> std_doc b = Some cp -> 161 <= b /\ b <> 173 -> cp = b).
  { intros b cp B Hb Hr. unfold std_doc in Hb.
    replace (b <? 24) with false in Hb by lia. replace (b <? 32) with false in Hb by lia. replace (b <? 127) with false in Hb by lia.
    replace (b =? 127) with false in Hb by lia. replace (b <? 159) with false in Hb by lia. replace (b =? 159) with false in Hb by lia.
    replace (b =? 160) with false in Hb by lia. replace (b =? 173) with false in Hb by lia. congruence. }
  assert (K3 : exists r, d = 254 :: 255 :: r \/ d = 255 :: 254 :: r \/ d = 239 :: 187 :: 191 :: r).
  { unfold marked in M. rewrite !orb_true_iff, !beq_eq in M. destruct M as [[M|M]|M].
    - exists (skipn 2 d). left. rewrite <- (firstn_skipn 2 d) at 1. rewrite M. reflexivity.
    - exists (skipn 2 d). right. left. rewrite <- (firstn_skipn 2 d) at 1. rewrite M. reflexivity.
    - exists (skipn 3 d). right. right. rewrite <- (firstn_skipn 3 d) at 1. rewrite M. reflexivity. }
  destruct K3 as (r & [-> | [-> | ->]]).
  - inversion E as [|? c1 ? l1 [B1 E1] T1]; subst. inversion T1 as [|? c2 ? l2 [B2 E2] T2]; subst.
    rewrite (K 254 c1 B1 E1), (K 255 c2 B2 E2) by lia. reflexivity.
  - inversion E as [|? c1 ? l1 [B1 E1] T1]; subst. inversion T1 as [|? c2 ? l2 [B2 E2] T2]; subst.
    rewrite (K 255 c1 B1 E1), (K 254 c2 B2 E2) by lia. reflexivity.
  - inversion E as [|? c1 ? l1 [B1 E1] T1]; subst. inversion T1 as [|? c2 ? l2 [B2 E2] T2]; subst.
    inversion T2 as [|? c3 ? l3 [B3 E3] T3]; subst.
    rewrite (K 239 c1 B1 E1), (K 187 c2 B2 E2), (K 191 c3 B3 E3) by lia. reflexivity.
Qed.

Lemma text_round_trip l : scalars l -> marked l = false ->
  exists p d, init_utf8 (utf8_text l) = Ok p /\ write_text p = Ok (write_string false d) /\ bytes_ok d /\
    (doc_encodes d l \/ d = 254 :: 255 :: utf16be_text l) /\
    forall h, get_string (from_raw d h) = Ok (utf8_text l).
Proof.
  intros S M. destruct (string_data_text l S) as (p & d & I & Hx & Hc & D & F). exists p, d.
  split; [exact I|]. unfold write_text. rewrite D, Hx. cbn [bind]. split; [reflexivity|].
  destruct (find_all l) as [s|] eqn:G.
  - destruct F as [-> _]. apply find_all_encodes in G. destruct G as [E N]. split; [apply (encodes_scalars s l E)|].
    split; [left; exact E|]. intro h. apply get_doc; [exact E|exact N|]. destruct (marked s) eqn:K; [|reflexivity].
    rewrite (marked_chars s l E K) in M. discriminate.
  - destruct F as [-> _]. split; [repeat constructor; try lia; apply utf16be_bytes; exact S|]. split; [right; reflexivity|].
    intro h. apply get_be. exact S.
Qed.

Lemma doc_round_trip d l : doc_encodes d l -> Forall (fun b => b <> 22) d ->
  (exists a, doc_to_utf8 d = Ok (utf8_text l, a)) /\ utf8_to_doc (utf8_text l) = Ok d.
Proof.
  intros E F. split; [apply doc_to_utf8_encodes; assumption|]. destruct (encodes_scalars d l E) as [S _].
  unfold utf8_to_doc, try_utf8_to_doc. rewrite try_text by (try exact S; apply text_len; exact S). cbn [bind].
  rewrite (find_all_back d l E F). reflexivity.
Qed.
Lemma find_all_none l : find_all l = None <-> exists cp, In cp l /\ doc_find cp = None.
Proof.
  induction l as [|cp l IH]; cbn [find_all].
  - split; [discriminate|intros (? & [] & _)].
  - destruct (doc_find cp) as [b|] eqn:E.
    + destruct (find_all l) eqn:F.
      * split; [discriminate|]. intros (x & [->|I] & N); [congruence|].
        destruct IH as [_ IH]. discriminate IH. exists x. tauto.
      * split; [|reflexivity]. intros _. destruct IH as [IH _]. destruct (IH eq_refl) as (x & I & N). exists x. split; [right; exact I|exact N].
    + split; [|reflexivity]. intros _. exists cp. split; [left; reflexivity|exact E].
Qed.
Lemma doc_find_none cp : scalar cp -> doc_find cp = None <-> (~ doc_char cp \/ cp = 22).
Proof.
  intro S. split; intro H.
  - destruct (Z.eq_dec cp 22) as [|N]; [right; assumption|left]. intros (b & B & E).
    destruct (Z.eq_dec b 22) as [->|Nb]; [vm_compute in E; congruence|]. rewrite (doc_find_back b cp B Nb E) in H. discriminate H.
  - destruct (doc_find cp) as [b|] eqn:E; [|reflexivity]. exfalso. apply doc_find_inv in E. destruct E as (B & N & E).
    destruct H as [H | ->]; [apply H; exists b; tauto|].
    pose proof (byte_check (fun b => (b =? 22) || negb (match std_doc b with Some c => c =? 22 | None => false end)) ltac:(vm_compute; reflexivity) b B) as C.
    cbv beta in C. rewrite E in C. cbn in C. lia.
Qed.
Lemma doc_accepts l : scalars l ->
  ((exists d, utf8_to_doc (utf8_text l) = Ok d) <-> Forall (fun cp => doc_char cp /\ cp <> 22) l) /\
  (utf8_to_doc (utf8_text l) = Err EInvalidHandle <-> ~ Forall (fun cp => doc_char cp /\ cp <> 22) l).
Proof.
  intro S. unfold utf8_to_doc, try_utf8_to_doc. rewrite try_text by (try exact S; apply text_len; exact S). cbn [bind].
  assert (X : find_all l <> None <-> Forall (fun cp => doc_char cp /\ cp <> 22) l).
  { rewrite find_all_none, Forall_forall. split.
    - intros H cp I. pose proof (proj1 (Forall_forall _ _) S cp I) as Sc. destruct (doc_find cp) as [b|] eqn:E.
      + apply doc_find_inv in E as E'. destruct E' as (B & N & E'). split; [exists b; tauto|]. intros ->.
        assert (doc_find 22 = None) by (apply doc_find_none; [exact Sc|right; reflexivity]). congruence.
      + exfalso. apply H. exists cp. tauto.
    - intros H (cp & I & N). apply doc_find_none in N; [|exact (proj1 (Forall_forall _ _) S cp I)]. specialize (H cp I). tauto. }
  rewrite <- X. destruct (find_all l) as [d|].
  - split; split; intro H; try congruence; [exists d; reflexivity|exfalso; apply H; discriminate].
  - split; split; intro H; try congruence. destruct H as [? H]. discriminate H.
Qed.
Lemma doc_22_refuted : exists d, bytes_ok d /\ (exists l, doc_encodes d l) /\
  forall t a, doc_to_utf8 d = Ok (t, a) -> utf8_to_doc t <> Ok d.
Proof.
  exists [22]. split; [repeat constructor; lia|]. split; [exists [22]; repeat constructor; lia|].
  intros t a H. vm_compute in H. apply ok_inj in H. injection H as <- _. vm_compute. discriminate.
Qed.

Lemma marked_refuted l : In l [[254; 255; 97]; [255; 254; 97; 98]; [239; 187; 191; 233]] -> scalars l /\
  exists p d, init_utf8 (utf8_text l) = Ok p /\ string_data p = Ok d /\ doc_encodes d l /\
    forall h, get_string (from_raw d h) <> Ok (utf8_text l).
Proof.
  intro H. assert (Z1 : forall x, (0 <=? x) && (x <? 256) = true -> scalar x /\ is_byte x) by (intros; unfold scalar, is_byte; lia).
  cbn [In] in H. destruct H as [<-|[<-|[<-|[]]]]; (split; [repeat constructor; apply Z1; reflexivity|]);
    (eexists _, _; split; [vm_compute; reflexivity|split; [vm_compute; reflexivity|split;
      [repeat constructor; apply Z1; reflexivity|intros h; destruct h; vm_compute; discriminate]]]).
Qed.

(** ** Comparison *)
Lemma str_ne_neg a b : str_ne a b = negb (str_eq a b).
Proof. unfold str_ne, str_eq. destruct (can_compare a b); reflexivity. Qed.
Lemma str_eq_evaluated a b : valid_text a = true -> valid_text b = true -> str_eq a b = true <-> get_string a = get_string b.
Proof.
  intros Va Vb. unfold str_eq, can_compare. rewrite Va, orb_true_r. cbn [orb andb]. rewrite beq_eq.
  assert (G : forall p, valid_text p = true -> get_string p = Ok (ps_chars p)).
  { intros p V. unfold get_string, evaluate. unfold valid_text in V. destruct (ps_state p); try discriminate; reflexivity. }
  rewrite (G a Va), (G b Vb). split; [congruence|apply ok_inj].
Qed.
Lemma compare_refuted : exists a b a', evaluate a = Ok a' /\ get_string a = get_string b /\ str_eq a b = false /\ str_eq a' b = true.
Proof.
  exists (from_raw [233] false), (mk_pstr SDoc [195; 169] false), (mk_pstr SDoc [195; 169] false).
  split; [vm_compute; reflexivity|]. split; [vm_compute; reflexivity|]. split; vm_compute; reflexivity.
Qed.
Lemma compare_wrong_true : exists a b, str_eq a b = true /\ get_string a <> get_string b.
Proof.
  exists (from_raw [195; 169] false), (mk_pstr SDoc [195; 169] false). split; [vm_compute; reflexivity|vm_compute; discriminate].
Qed.

(** ** Position-indexed comparison *)
Lemma coincident_bounds l : bytes_ok l -> exists a, coincident l = Ok a.
Proof.
  intro B. unfold coincident.
  assert (G : forall n i l, bytes_ok l -> (i + n = 24)%nat -> exists a, coincident_from i l = Ok a).
  { induction n as [|n IH]; intros i k Bk Hi.
    - assert (i = 24%nat) as -> by lia. destruct k as [|c k]; [exists true; reflexivity|].
      exists false. cbn [coincident_from]. change (nth_error doc_table 24) with (Some 728). cbv iota beta.
      pose proof (Forall_inv Bk) as Bc. unfold is_byte in Bc. replace (c =? 728) with false by lia. reflexivity.
    - destruct k as [|c k]; [exists true; reflexivity|]. cbn [coincident_from].
      destruct (nth_error doc_table i) as [m|] eqn:E.
      + destruct (c =? m); [|exists false; reflexivity]. apply IH; [exact (Forall_inv_tail Bk)|lia].
      + exfalso. apply nth_error_None in E. change (length doc_table) with 256%nat in E. lia. }
  apply (G 24%nat 0%nat l B eq_refl).
Qed.
Lemma coincident_refuted : exists l, bytes_ok l /\ doc_to_utf8 l = Ok (l, true) /\ coincident l = Ok false.
Proof. exists (bs "Hello"). split; [apply bytes_okb_iff; vm_compute; reflexivity|]. split; vm_compute; reflexivity. Qed.

(** ** Keywords *)
Lemma kw_step f cur l : l <> [] -> keywords_from (S f) cur l =
  do (cp, r) <- utf8_next l;
  let cur := cur ++ firstn (length l - length r) l in
  if (cp =? 13) || (cp =? 10)
  then do o <- keywords_from f [] r; Ok (match cur with [] => o | _ => cur :: o end)
  else keywords_from f cur r.
Proof. destruct l; [congruence|reflexivity]. Qed.
Lemma kw_text l : scalars l -> forall f cur, (length l <= f)%nat ->
  exists ks, keywords_from f cur (utf8_text l) = Ok ks /\ concat ks = cur ++ utf8_text l /\ Forall (fun k => k <> []) ks /\
    (Forall (fun cp => cp <> 13 /\ cp <> 10) l -> cur ++ utf8_text l <> [] -> ks = [cur ++ utf8_text l]).
Proof.
  intro S. induction S as [|cp l Hc Hl IH]; intros f cur Hf.
  - exists (match cur with [] => [] | _ => [cur] end). destruct f; (split; [reflexivity|]); destruct cur;
      (split; [cbn; rewrite ?app_nil_r; reflexivity|]); (split; [repeat constructor; discriminate|]); intros _ N; cbn in *; rewrite ?app_nil_r; congruence.
  - destruct f as [|f]; [cbn in Hf; lia|]. rewrite kw_step by (apply text_nil; exact Hc).
    rewrite utf8_text_cons, next_spec by exact Hc. cbn [bind]. cbv zeta.
    replace (length (utf8_char cp ++ utf8_text l) - length (utf8_text l))%nat with (length (utf8_char cp)) by (rewrite app_length; lia).
    rewrite firstn_app, Nat.sub_diag, firstn_all. cbn [firstn]. rewrite app_nil_r.
    assert (N : cur ++ utf8_char cp <> []).
    { intro E. apply app_eq_nil in E. destruct (utf8_char_bytes cp Hc). tauto. }
    destruct ((cp =? 13) || (cp =? 10)) eqn:D.
    + destruct (IH f [] ltac:(cbn in Hf; lia)) as (ks & E & C & F & _). rewrite E. cbn [bind].
      exists ((cur ++ utf8_char cp) :: ks).
      split; [destruct (cur ++ utf8_char cp); [congruence|reflexivity]|]. split; [cbn [concat]; rewrite C, <- app_assoc; reflexivity|].
      split; [constructor; assumption|]. intros X _. apply Forall_inv in X. lia.
    + destruct (IH f (cur ++ utf8_char cp) ltac:(cbn in Hf; lia)) as (ks & E & C & F & G). exists ks.
      rewrite <- app_assoc in C, G. split; [exact E|]. split; [exact C|]. split; [exact F|]. intros X Y. apply G; [exact (Forall_inv_tail X)|exact Y].
Qed.
Lemma kw_list l : scalars l -> exists ks, keywords_list (utf8_text l) = Ok ks /\ concat ks = utf8_text l /\ Forall (fun k => k <> []) ks.
Proof.
  intro S. destruct (kw_text l S (length (utf8_text l)) [] (text_len l S)) as (ks & E & C & F & _). exists ks. tauto.
Qed.
Lemma kw_single l : scalars l -> l <> [] -> Forall (fun cp => cp <> 13 /\ cp <> 10) l ->
  keywords_list (keywords_string [utf8_text l]) = Ok [utf8_text l].
Proof.
  intros S N F. cbn [keywords_string flat_map]. rewrite app_nil_r.
  destruct (kw_text l S (length (utf8_text l)) [] (text_len l S)) as (ks & E & _ & _ & G).
  unfold keywords_list. rewrite E. f_equal. apply (G F). destruct l; [congruence|]. cbn [app]. apply text_nil. exact (Forall_inv S).
Qed.
Lemma kw_refuted : keywords_list (keywords_string [bs "a"; bs "b"]) = Ok [bs "a" ++ [13]; [10]; bs "b"].
Proof. vm_compute. reflexivity. Qed.
