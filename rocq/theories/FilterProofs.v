(** Proofs for the ASCII filters, RunLength and the block discipline. *)
From Coq Require Import String.
From Verif Require Import Base BitLemmas TokModel WriteModel FilterModel FilterSpec.
Local Open Scope Z_scope.

(** ** Filters that do not notice block boundaries *)

Definition seamless (f : filt) : Prop :=
  (forall s, f_block f s [] = Ok (s, [])) /\
  (forall s a b, f_block f s (a ++ b) = do (s1, w1) <- f_block f s a; do (s2, w2) <- f_block f s1 b; Ok (s2, w1 ++ w2)).

Lemma seamless_blocks f : seamless f -> forall bl s, f_blocks f s bl = f_block f s (concat bl).
Proof.
  intros [H0 H1] bl. induction bl as [|b r IH]; intro s; cbn [f_blocks concat].
  - symmetry. apply H0.
  - rewrite H1. destruct (f_block f s b) as [[s1 w1]| | |]; try reflexivity. cbn [bind]. rewrite IH. reflexivity.
Qed.

Lemma seamless_run f bl : seamless f -> f_run f bl = f_run f [concat bl].
Proof.
  intro H. unfold f_run. destruct (f_begin f) as [s| | |]; cbn [bind]; try reflexivity.
  rewrite (seamless_blocks f H). rewrite (seamless_blocks f H). cbn [concat]. rewrite app_nil_r. reflexivity.
Qed.

Lemma seamless_yields f bl bl' out : seamless f -> concat bl = concat bl' -> yields f bl out -> yields f bl' out.
Proof.
  intros H E (w & R & W). exists w. split; [|exact W]. rewrite seamless_run in R |- * by exact H.
  rewrite <- E. exact R.
Qed.

Lemma yields_one f data out : yields f [data] out ->
  forall bl, seamless f -> concat bl = data -> yields f bl out.
Proof.
  intros Y bl H E. apply (seamless_yields f [data]); auto. cbn. rewrite app_nil_r. congruence.
Qed.

(** ** ASCIIHex *)

Lemma hex_enc_seamless : seamless hex_enc.
Proof.
  split; intros []; cbn [f_block hex_enc]; [reflexivity|].
  intros a b. unfold hex_encode_block. rewrite map_app. reflexivity.
Qed.

Lemma hex_decode_app a b : forall s,
  hex_decode_block s (a ++ b) =
  let '(s1, w1) := hex_decode_block s a in let '(s2, w2) := hex_decode_block s1 b in (s2, w1 ++ w2).
Proof.
  induction a as [|c a IH]; intros s; cbn [hex_decode_block app].
  - destruct (hex_decode_block s b). reflexivity.
  - destruct (is_ws c); [apply IH|]. destruct (snd s); [apply IH|]. rewrite IH.
    destruct (hex_decode_block _ a) as [s1 w1]. destruct (hex_decode_block s1 b) as [s2 w2]. reflexivity.
Qed.

Lemma hex_dec_seamless : seamless hex_dec.
Proof.
  split; intro s; cbn [f_block hex_dec].
  - reflexivity.
  - intros a b. rewrite hex_decode_app. cbn [bind].
    destruct (hex_decode_block s a) as [s1 w1]. cbn [bind]. destruct (hex_decode_block s1 b). reflexivity.
Qed.

Lemma white_is_ws c : white c = is_ws c.
Proof. unfold white, is_ws. cbn [existsb]. rewrite orb_false_r, !orb_assoc. reflexivity. Qed.

Lemma digit_value_hex c : digit_value c = hex_val c.
Proof. reflexivity. Qed.

Lemma digit_facts c v : digit_value c = Some v -> is_ws c = false /\ 0 <= v < 16 /\ hex_or_0 c = v /\ is_byte c.
Proof.
  intro H. assert (is_byte c).
  { unfold digit_value in H. unfold is_byte.
    destruct ((48 <=? c) && (c <=? 57)) eqn:E1; [apply andb_true_iff in E1; lia|].
    destruct ((65 <=? c) && (c <=? 70)) eqn:E2; [apply andb_true_iff in E2; lia|].
    destruct ((97 <=? c) && (c <=? 102)) eqn:E3; [apply andb_true_iff in E3; lia|discriminate]. }
  pose proof (byte_check (fun c => match digit_value c with Some v => negb (is_ws c) && (0 <=? v) && (v <? 16) | None => true end)
    ltac:(vm_compute; reflexivity) c H0) as B. cbv beta in B. rewrite H in B.
  apply andb_true_iff in B. destruct B as [B B3]. apply andb_true_iff in B. destruct B as [B1 B2].
  apply negb_true_iff in B1. split; [exact B1|]. split; [lia|]. split; [|exact H0].
  unfold hex_or_0. change (hex_val c) with (digit_value c). rewrite H. reflexivity.
Qed.

Lemma hex_skip ws : forallb white ws = true -> forall s t, hex_decode_block s (ws ++ t) = hex_decode_block s t.
Proof.
  induction ws as [|c ws IH]; intros H s t; [reflexivity|].
  cbn [forallb] in H. apply andb_true_iff in H. destruct H as [H1 H2].
  cbn [app hex_decode_block]. rewrite <- white_is_ws, H1. apply IH. exact H2.
Qed.

Lemma hex_pair a b ws va vb d t : digit_value a = Some va -> forallb white ws = true -> digit_value b = Some vb ->
  exists d', hex_decode_block (d, true) (a :: ws ++ b :: t) =
  (let '(s, w) := hex_decode_block (d', true) t in (s, [16 * va + vb] :: w)).
Proof.
  intros Ha Hw Hb. apply digit_facts in Ha, Hb. destruct Ha as (Wa & Ra & Va & _), Hb as (Wb & Rb & Vb & _).
  exists (16 * va + vb).
  cbn [hex_decode_block]. rewrite Wa. cbn [snd]. rewrite hex_skip by exact Hw.
  cbn [hex_decode_block]. rewrite Wb. cbn [snd fst]. rewrite Va, Vb.
  assert (Z.land va 15 = va) as ->.
  { change 15 with (Z.ones 4). rewrite Z.land_ones by lia. apply Z.mod_small. change (2 ^ 4) with 16. lia. }
  assert (u8 (Z.lor (Z.shiftl va 4) vb) = 16 * va + vb) as ->.
  { rewrite Z.shiftl_mul_pow2 by lia. rewrite lor_add by (change (2 ^ 4) with 16; lia).
    rewrite u8_id; [change (2 ^ 4) with 16; lia|]. unfold is_byte. change (2 ^ 4) with 16. lia. }
  reflexivity.
Qed.

Lemma hex_plain_decodes t d : hex_plain t d -> forall x, exists y w, hex_decode_block (x, true) t = ((y, true), w) /\ concat w = d.
Proof.
  induction 1 as [|c t d Hc Ht IH|a b ws va vb t d Ha Hw Hb Ht IH]; intro x.
  - exists x, []. split; reflexivity.
  - cbn [hex_decode_block]. rewrite <- white_is_ws, Hc. apply IH.
  - destruct (hex_pair a b ws va vb x t Ha Hw Hb) as [d' E]. rewrite E.
    destruct (IH d') as (y & w & E2 & C). rewrite E2. exists y, ([16 * va + vb] :: w).
    split; [reflexivity|]. cbn [concat app]. rewrite C. reflexivity.
Qed.

Lemma hex_plain_yields t d bl : hex_plain t d -> concat bl = t -> yields hex_dec bl d.
Proof.
  intros H E. apply (yields_one hex_dec t); [|apply hex_dec_seamless|exact E].
  destruct (hex_plain_decodes t d H 0) as (y & w & R & C).
  exists w. unfold f_run. cbn [f_begin hex_dec bind f_blocks f_block]. rewrite R. cbn [bind f_end hex_dec snd].
  rewrite !app_nil_r. split; [reflexivity|exact C].
Qed.

Lemma hex_byte_digits c : is_byte c -> exists a b va vb, hex_byte c = [a; b] /\
  digit_value a = Some va /\ digit_value b = Some vb /\ 16 * va + vb = c /\ is_byte a /\ is_byte b.
Proof.
  intro H.
  pose proof (byte_check (fun c => match hex_byte c with
    | [a; b] => match digit_value a, digit_value b with Some va, Some vb => 16 * va + vb =? c | _, _ => false end
    | _ => false end) ltac:(vm_compute; reflexivity) c H) as B. cbv beta in B.
  destruct (hex_byte c) as [|a [|b [|? ?]]]; try discriminate.
  destruct (digit_value a) as [va|] eqn:Ea; [|discriminate]. destruct (digit_value b) as [vb|] eqn:Eb; [|discriminate].
  exists a, b, va, vb. repeat split; try apply (digit_facts a va); try apply (digit_facts b vb); auto.
  apply Z.eqb_eq. exact B.
Qed.

Lemma hex_text_plain data : bytes_ok data -> hex_plain (concat (hex_encode_block data)) data /\ bytes_ok (concat (hex_encode_block data)).
Proof.
  induction 1 as [|c r Hc Hr [IH1 IH2]].
  - split; constructor.
  - unfold hex_encode_block. cbn [map concat]. destruct (hex_byte_digits c Hc) as (a & b & va & vb & E & Ea & Eb & V & Ba & Bb).
    rewrite E. cbn [app]. split.
    + rewrite <- V. apply (hp_byte a b [] va vb); auto.
    + constructor; [exact Ba|]. constructor; [exact Bb|]. exact IH2.
Qed.

Lemma hex_undoes : undoes hex_dec hex_enc.
Proof.
  intros data Hd. exists (concat (hex_encode_block data)). destruct (hex_text_plain data Hd) as [P B].
  split; [exact B|]. split.
  - intros bl E. apply (yields_one hex_enc data); [|apply hex_enc_seamless|exact E].
    exists (hex_encode_block data). unfold f_run. cbn. rewrite !app_nil_r. split; reflexivity.
  - intros bl E. apply (hex_plain_yields _ _ _ P E).
Qed.

(** ** ASCII85 *)

Lemma a85_encode_app a b : forall s,
  a85_encode_block s (a ++ b) =
  let '(s1, w1) := a85_encode_block s a in let '(s2, w2) := a85_encode_block s1 b in (s2, w1 ++ w2).
Proof.
  induction a as [|c a IH]; intros s; cbn [a85_encode_block app].
  - destruct (a85_encode_block s b). reflexivity.
  - destruct s as [n t].
    destruct (n =? 0); [apply IH|]. destruct (n =? 1); [apply IH|]. destruct (n =? 2); [apply IH|].
    destruct (n =? 3); [|apply IH]. rewrite IH. destruct (a85_encode_block (0, 0) a) as [s1 w1].
    destruct (a85_encode_block s1 b) as [s2 w2]. reflexivity.
Qed.

Lemma a85_enc_seamless : seamless a85_enc.
Proof.
  split; intro s; cbn [f_block a85_enc].
  - reflexivity.
  - intros a b. rewrite a85_encode_app. destruct (a85_encode_block s a) as [s1 w1]. cbn [bind].
    destruct (a85_encode_block s1 b) as [s2 w2]. reflexivity.
Qed.

(** The encoder writes the standard text. *)
Lemma encode_tuple_five v : 0 <= v < 2 ^ 32 -> forall n, (n <= 4)%nat ->
  encode_tuple v (Z.of_nat n) = firstn (S n) (five v).
Proof.
  intros Hv n Hn. unfold encode_tuple, five. rewrite Nat2Z.id.
  rewrite <- firstn_map. replace (n + 1)%nat with (S n) by lia. f_equal.
  cbn [digits85 rev app map]. rewrite !Z.div_div by lia.
  change (85 * 85) with (85 ^ 2). change (85 ^ 2 * 85) with (85 ^ 3). change (85 ^ 3 * 85) with (85 ^ 4).
  rewrite (Z.mod_small (v / 85 ^ 4)); [reflexivity|].
  split; [apply Z.div_pos; lia|]. apply Z.div_lt_upper_bound; lia.
Qed.

Lemma lor24 a : Z.lor 0 (Z.shiftl a 24) = a * 256 ^ 3.
Proof. rewrite Z.lor_0_l, Z.shiftl_mul_pow2 by lia. reflexivity. Qed.
Lemma lor16 a b : is_byte b -> Z.lor (a * 256 ^ 3) (Z.shiftl b 16) = a * 256 ^ 3 + b * 256 ^ 2.
Proof.
  intros [? ?]. rewrite Z.shiftl_mul_pow2 by lia. change (256 ^ 3) with (2 ^ 24). apply lor_add; lia.
Qed.
Lemma lor8 a b c : is_byte b -> is_byte c ->
  Z.lor (a * 256 ^ 3 + b * 256 ^ 2) (Z.shiftl c 8) = a * 256 ^ 3 + b * 256 ^ 2 + c * 256.
Proof.
  intros [? ?] [? ?]. rewrite Z.shiftl_mul_pow2 by lia.
  replace (a * 256 ^ 3 + b * 256 ^ 2) with ((a * 256 + b) * 2 ^ 16) by lia. rewrite lor_add by lia. lia.
Qed.
Lemma lor0 a b c d : is_byte d ->
  Z.lor (a * 256 ^ 3 + b * 256 ^ 2 + c * 256) d = big4 a b c d.
Proof.
  intros [? ?]. unfold big4.
  replace (a * 256 ^ 3 + b * 256 ^ 2 + c * 256) with ((a * 256 ^ 2 + b * 256 + c) * 2 ^ 8) by lia.
  rewrite lor_add by lia. lia.
Qed.

Lemma big4_range a b c d : is_byte a -> is_byte b -> is_byte c -> is_byte d -> 0 <= big4 a b c d < 2 ^ 32.
Proof. unfold is_byte, big4. intros. lia. Qed.

(** induction over groups of four *)
Lemma four_ind (P : list Z -> Prop) :
  P [] -> (forall a, P [a]) -> (forall a b, P [a; b]) -> (forall a b c, P [a; b; c]) ->
  (forall a b c d r, P r -> P (a :: b :: c :: d :: r)) -> forall l, P l.
Proof.
  intros H0 H1 H2 H3 H4. fix F 1. intros [|a [|b [|c [|d r]]]]; [exact H0|apply H1|apply H2|apply H3|apply H4, F].
Qed.

Lemma a85_encode_text data : bytes_ok data ->
  concat (snd (a85_encode_block (0, 0) data) ++
          (let s := fst (a85_encode_block (0, 0) data) in
           if 0 <? fst s then [encode_tuple (snd s) (fst s)] else [])) = ascii85 data.
Proof.
  assert (B0 : is_byte 0) by (unfold is_byte; lia).
  induction data as [|a|a b|a b c|a b c d r IH] using four_ind; intro H;
    cbn [a85_encode_block Z.eqb Pos.eqb fst snd app concat ascii85 Z.ltb Z.compare Pos.compare Pos.compare_cont].
  - reflexivity.
  - inversion_clear H. rewrite lor24, app_nil_r. change 1 with (Z.of_nat 1).
    rewrite <- (encode_tuple_five (big4 a 0 0 0)) by (try apply big4_range; auto; lia). f_equal. unfold big4. lia.
  - inversion_clear H as [|? ? Ha H1]. inversion_clear H1 as [|? ? Hb _]. rewrite lor24, lor16 by auto.
    rewrite app_nil_r. change 2 with (Z.of_nat 2) at 2.
    rewrite <- (encode_tuple_five (big4 a b 0 0)) by (try apply big4_range; auto; lia). f_equal. unfold big4. lia.
  - inversion_clear H as [|? ? Ha H1]. inversion_clear H1 as [|? ? Hb H2]. inversion_clear H2 as [|? ? Hc _].
    rewrite lor24, lor16, lor8 by auto.
    rewrite app_nil_r. change 3 with (Z.of_nat 3) at 2.
    rewrite <- (encode_tuple_five (big4 a b c 0)) by (try apply big4_range; auto; lia). f_equal. unfold big4. lia.
  - inversion_clear H as [|? ? Ha H1]. inversion_clear H1 as [|? ? Hb H2]. inversion_clear H2 as [|? ? Hc H3].
    inversion_clear H3 as [|? ? Hd Hr]. rewrite lor24, lor16, lor8, lor0 by auto.
    specialize (IH Hr). destruct (a85_encode_block (0, 0) r) as [s w]. cbn [fst snd] in IH |- *.
    cbn [app concat]. rewrite IH. f_equal. destruct (big4 a b c d =? 0); [reflexivity|].
    change 4 with (Z.of_nat 4). rewrite encode_tuple_five by (try apply big4_range; auto; lia). reflexivity.
Qed.

Lemma a85_enc_yields data : bytes_ok data -> forall bl, concat bl = data -> yields a85_enc bl (ascii85 data).
Proof.
  intros H bl E. apply (yields_one a85_enc data); [|apply a85_enc_seamless|exact E].
  pose proof (a85_encode_text data H) as T. unfold yields, f_run. cbn [f_begin a85_enc bind f_blocks f_block f_end].
  destruct (a85_encode_block (0, 0) data) as [s w]. cbn [bind fst snd] in T |- *.
  eexists. split; [reflexivity|]. rewrite app_nil_r. exact T.
Qed.

(** the decoder on one character *)
Definition a85_char (c : Z) : Prop := 33 <= c <= 117.

Lemma a85_char_step c : a85_char c -> forall n t r,
  a85_decode_block (n, t) (c :: r) =
      let t' := u32 (t + (c - 33) * pow85 n) in
      if n + 1 =? 5 then do (s', w) <- a85_decode_block (0, 0) r; Ok (s', wide_put t' 4 :: w)
      else a85_decode_block (n + 1, t') r.
Proof.
  intros [H1 H2] n t r. cbn [a85_decode_block].
  replace (c =? 122) with false by lia. replace (c =? 126) with false by lia.
  assert (a85_skip c = false) as ->. { unfold a85_skip. lia. }
  assert (schar c = c) as ->. { unfold schar. destruct (c <? 128) eqn:E; lia. }
  replace (c <? 33) with false by lia. replace (117 <? c) with false by lia. reflexivity.
Qed.

Lemma five_chars v : 0 <= v < 2 ^ 32 -> Forall a85_char (five v).
Proof.
  intro H. unfold five. assert (0 <= v / 85 ^ 4 < 85).
  { split; [apply Z.div_pos; lia|]. apply Z.div_lt_upper_bound; lia. }
  repeat constructor; unfold a85_char;
    try (pose proof (Z.mod_pos_bound (v / 85 ^ 3) 85 ltac:(lia)); lia);
    try (pose proof (Z.mod_pos_bound (v / 85 ^ 2) 85 ltac:(lia)); lia);
    try (pose proof (Z.mod_pos_bound (v / 85) 85 ltac:(lia)); lia);
    try (pose proof (Z.mod_pos_bound v 85 ltac:(lia)); lia); lia.
Qed.

(** what the first k characters of a group add up to *)
Lemma five_sums v : 0 <= v < 2 ^ 32 ->
  let d0 := v / 85 ^ 4 in let d1 := v / 85 ^ 3 mod 85 in let d2 := v / 85 ^ 2 mod 85 in
  let d3 := v / 85 mod 85 in let d4 := v mod 85 in
  d0 * 52200625 = v - v mod 85 ^ 4 /\ v mod 85 ^ 4 - v mod 85 ^ 3 = d1 * 614125 /\
  v mod 85 ^ 3 - v mod 85 ^ 2 = d2 * 7225 /\ v mod 85 ^ 2 - v mod 85 = d3 * 85 /\ d4 = v mod 85.
Proof.
  intros H d0 d1 d2 d3 d4. subst d0 d1 d2 d3 d4.
  assert (M : forall k, 0 <= k -> v mod 85 ^ (k + 1) - v mod 85 ^ k = (v / 85 ^ k) mod 85 * 85 ^ k).
  { intros k Hk. rewrite Z.pow_add_r by lia. change (85 ^ 1) with 85.
    rewrite Z.rem_mul_r by lia. lia. }
  pose proof (M 3 ltac:(lia)). pose proof (M 2 ltac:(lia)). pose proof (M 1 ltac:(lia)).
  pose proof (Z.div_mod v (85 ^ 4) ltac:(lia)).
  change (3 + 1) with 4 in *. change (2 + 1) with 3 in *. change (1 + 1) with 2 in *. change (85 ^ 1) with 85 in *.
  change (85 ^ 4) with 52200625 in *. change (85 ^ 3) with 614125 in *. change (85 ^ 2) with 7225 in *.
  repeat split; lia.
Qed.

(** Reading the leading characters of a group, k of them *)
Lemma a85_group v : 0 <= v < 2 ^ 32 -> forall r,
  let d := five v in let c i := nth i d 0 in
  a85_decode_block (0, 0) (c 0%nat :: c 1%nat :: r) = a85_decode_block (2, v - v mod 85 ^ 3) r /\
  a85_decode_block (2, v - v mod 85 ^ 3) (c 2%nat :: r) = a85_decode_block (3, v - v mod 85 ^ 2) r /\
  a85_decode_block (3, v - v mod 85 ^ 2) (c 3%nat :: r) = a85_decode_block (4, v - v mod 85) r /\
  a85_decode_block (4, v - v mod 85) (c 4%nat :: r) =
    do (s', w) <- a85_decode_block (0, 0) r; Ok (s', wide_put v 4 :: w).
Proof.
  intros H r d c. pose proof (five_chars v H) as F. pose proof (five_sums v H) as S. cbv zeta in S.
  unfold five in F. pose proof (Forall_inv F) as F0. apply Forall_inv_tail in F. pose proof (Forall_inv F) as F1.
  apply Forall_inv_tail in F. pose proof (Forall_inv F) as F2. apply Forall_inv_tail in F. pose proof (Forall_inv F) as F3.
  apply Forall_inv_tail in F. pose proof (Forall_inv F) as F4. clear F.
  subst c d. unfold five. cbn [nth].
  pose proof (Z.mod_pos_bound v (85 ^ 4) ltac:(lia)). pose proof (Z.mod_pos_bound v (85 ^ 3) ltac:(lia)).
  pose proof (Z.mod_pos_bound v (85 ^ 2) ltac:(lia)). pose proof (Z.mod_pos_bound v 85 ltac:(lia)).
  assert (v mod 85 ^ 4 <= v) by (apply Z.mod_le; lia). assert (v mod 85 ^ 3 <= v) by (apply Z.mod_le; lia).
  assert (v mod 85 ^ 2 <= v) by (apply Z.mod_le; lia). assert (v mod 85 <= v) by (apply Z.mod_le; lia).
  destruct S as (S0 & S1 & S2 & S3 & S4).
  split; [|split; [|split]].
  - rewrite (a85_char_step _ F0). cbv zeta. change (0 + 1 =? 5) with false. cbv iota.
    change (pow85 0) with 52200625.
    replace (0 + (v / 85 ^ 4 + 33 - 33) * 52200625) with (v - v mod 85 ^ 4) by lia.
    rewrite u32_id by lia. change (0 + 1) with 1. rewrite (a85_char_step _ F1). cbv zeta.
    change (1 + 1 =? 5) with false. cbv iota. change (pow85 1) with 614125.
    replace (v - v mod 85 ^ 4 + (v / 85 ^ 3 mod 85 + 33 - 33) * 614125) with (v - v mod 85 ^ 3) by lia.
    rewrite u32_id by lia. reflexivity.
  - rewrite (a85_char_step _ F2). cbv zeta. change (2 + 1 =? 5) with false. cbv iota. change (pow85 2) with 7225.
    replace (v - v mod 85 ^ 3 + (v / 85 ^ 2 mod 85 + 33 - 33) * 7225) with (v - v mod 85 ^ 2) by lia.
    rewrite u32_id by lia. reflexivity.
  - rewrite (a85_char_step _ F3). cbv zeta. change (3 + 1 =? 5) with false. cbv iota. change (pow85 3) with 85.
    replace (v - v mod 85 ^ 2 + (v / 85 mod 85 + 33 - 33) * 85) with (v - v mod 85) by lia.
    rewrite u32_id by lia. reflexivity.
  - rewrite (a85_char_step _ F4). cbv zeta. change (4 + 1 =? 5) with true. cbv iota. change (pow85 4) with 1.
    replace (v - v mod 85 + (v mod 85 + 33 - 33) * 1) with v by lia.
    rewrite u32_id by lia. reflexivity.
Qed.

(** the leading bytes of a number that differs from big4 only below *)
Lemma wide_put_top n a b c d x : is_byte a -> is_byte b -> is_byte c -> is_byte d -> 0 <= x ->
  (n = 4 -> x = 0) -> (n = 3 -> d = 0 /\ x < 256) -> (n = 2 -> c = 0 /\ d = 0 /\ x < 256 ^ 2) ->
  (n = 1 -> b = 0 /\ c = 0 /\ d = 0 /\ x < 256 ^ 3) -> 1 <= n <= 4 ->
  wide_put (big4 a b c d + x) n = firstn (Z.to_nat n) [a; b; c; d].
Proof.
  intros Ha Hb Hc Hd Hx H4 H3 H2 H1 Hn. unfold wide_put, big4, u8, is_byte in *.
  change (2 ^ 8) with 256. change (2 ^ 16) with (256 ^ 2). change (2 ^ 24) with (256 ^ 3).
  assert (n = 1 \/ n = 2 \/ n = 3 \/ n = 4) as [-> | [-> | [-> | ->]]] by lia.
  - destruct (H1 eq_refl) as (-> & -> & -> & L). change (Z.to_nat 1) with 1%nat. cbn [firstn].
    f_equal. replace (a * 256 ^ 3 + 0 * 256 ^ 2 + 0 * 256 + 0 + x) with (x + a * 256 ^ 3) by lia.
    rewrite Z.div_add by lia. rewrite (Z.div_small x) by lia. rewrite Z.mod_small; lia.
  - destruct (H2 eq_refl) as (-> & -> & L). change (Z.to_nat 2) with 2%nat. cbn [firstn].
    replace (a * 256 ^ 3 + b * 256 ^ 2 + 0 * 256 + 0 + x) with (x + (a * 256 + b) * 256 ^ 2) by lia.
    f_equal; [|f_equal].
    + change (256 ^ 3) with (256 ^ 2 * 256). rewrite <- Z.div_div by lia. rewrite Z.div_add by lia.
      rewrite (Z.div_small x) by lia. rewrite Z.add_0_l, (Z.add_comm _ b), Z.div_add by lia.
      rewrite Z.div_small by lia. rewrite Z.mod_small; lia.
    + rewrite Z.div_add by lia. rewrite (Z.div_small x) by lia. rewrite Z.add_0_l, (Z.add_comm _ b), Z.mod_add by lia.
      apply Z.mod_small; lia.
  - destruct (H3 eq_refl) as (-> & L). change (Z.to_nat 3) with 3%nat. cbn [firstn].
    replace (a * 256 ^ 3 + b * 256 ^ 2 + c * 256 + 0 + x) with (x + ((a * 256 + b) * 256 + c) * 256) by lia.
    f_equal; [|f_equal; [|f_equal]].
    + change (256 ^ 3) with (256 * 256 * 256). rewrite <- !Z.div_div by lia. rewrite Z.div_add by lia.
      rewrite (Z.div_small x) by lia. rewrite Z.add_0_l, (Z.add_comm _ c), Z.div_add by lia.
      rewrite (Z.div_small c) by lia. rewrite Z.add_0_l, (Z.add_comm _ b), Z.div_add by lia.
      rewrite Z.div_small by lia. rewrite Z.mod_small; lia.
    + change (256 ^ 2) with (256 * 256). rewrite <- !Z.div_div by lia. rewrite Z.div_add by lia.
      rewrite (Z.div_small x) by lia. rewrite Z.add_0_l, (Z.add_comm _ c), Z.div_add by lia.
      rewrite (Z.div_small c) by lia. rewrite Z.add_0_l, (Z.add_comm _ b), Z.mod_add by lia.
      apply Z.mod_small; lia.
    + rewrite Z.div_add by lia. rewrite (Z.div_small x) by lia. rewrite Z.add_0_l, (Z.add_comm _ c), Z.mod_add by lia.
      apply Z.mod_small; lia.
  - rewrite (H4 eq_refl). change (Z.to_nat 4) with 4%nat. cbn [firstn].
    replace (a * 256 ^ 3 + b * 256 ^ 2 + c * 256 + d + 0) with (d + ((a * 256 + b) * 256 + c) * 256) by lia.
    f_equal; [|f_equal; [|f_equal; [|f_equal]]].
    + change (256 ^ 3) with (256 * 256 * 256). rewrite <- !Z.div_div by lia. rewrite Z.div_add by lia.
      rewrite (Z.div_small d) by lia. rewrite Z.add_0_l, (Z.add_comm _ c), Z.div_add by lia.
      rewrite (Z.div_small c) by lia. rewrite Z.add_0_l, (Z.add_comm _ b), Z.div_add by lia.
      rewrite Z.div_small by lia. rewrite Z.mod_small; lia.
    + change (256 ^ 2) with (256 * 256). rewrite <- !Z.div_div by lia. rewrite Z.div_add by lia.
      rewrite (Z.div_small d) by lia. rewrite Z.add_0_l, (Z.add_comm _ c), Z.div_add by lia.
      rewrite (Z.div_small c) by lia. rewrite Z.add_0_l, (Z.add_comm _ b), Z.mod_add by lia.
      apply Z.mod_small; lia.
    + rewrite Z.div_add by lia. rewrite (Z.div_small d) by lia. rewrite Z.add_0_l, (Z.add_comm _ c), Z.mod_add by lia.
      apply Z.mod_small; lia.
    + rewrite Z.mod_add by lia. apply Z.mod_small; lia.
Qed.

(** The state after the text of [data], and what the end of data adds to the output *)
Lemma a85_decodes data : bytes_ok data -> forall k,
  exists s1 w1, concat (w1 ++ a85_end s1) = data /\
    a85_decode_block (0, 0) (ascii85 data ++ k) = (do (s2, w2) <- a85_decode_block s1 k; Ok (s2, w1 ++ w2)).
Proof.
  intros H k. revert H.
  assert (B0 : is_byte 0) by (unfold is_byte; lia).
  assert (RID : forall (r : res ((Z * Z) * list (list Z))), r = (do (s2, w2) <- r; Ok (s2, [] ++ w2))).
  { intros [[? ?]| | |]; reflexivity. }
  induction data as [|a|a b|a b c|a b c d r IH] using four_ind; intro H.
  - exists (0, 0), []. split; [reflexivity|]. cbn [ascii85 app]. apply RID.
  - inversion_clear H as [|? ? Ha _]. pose proof (big4_range a 0 0 0 Ha B0 B0 B0) as R.
    exists (2, big4 a 0 0 0 - big4 a 0 0 0 mod 85 ^ 3), []. split.
    + cbn [a85_end app concat Z.ltb Z.compare]. change (pow85 (2 - 1)) with (85 ^ 3).
      pose proof (Z.mod_pos_bound (big4 a 0 0 0) (85 ^ 3) ltac:(lia)).
      pose proof (Z.mod_le (big4 a 0 0 0) (85 ^ 3) ltac:(lia) ltac:(lia)).
      assert (L : big4 a 0 0 0 <= 255 * 256 ^ 3) by (unfold big4, is_byte in *; lia).
      rewrite u32_id by lia. rewrite app_nil_r. change (2 - 1) with 1.
      replace (big4 a 0 0 0 - big4 a 0 0 0 mod 85 ^ 3 + 85 ^ 3) with (big4 a 0 0 0 + (85 ^ 3 - big4 a 0 0 0 mod 85 ^ 3)) by lia.
      rewrite wide_put_top by (auto; lia). reflexivity.
    + cbn [ascii85]. destruct (a85_group (big4 a 0 0 0) R k) as (G & _). cbv zeta in G. unfold five in *. cbn [nth firstn app] in *.
      rewrite G. apply RID.
  - inversion_clear H as [|? ? Ha H1]. inversion_clear H1 as [|? ? Hb _]. pose proof (big4_range a b 0 0 Ha Hb B0 B0) as R.
    exists (3, big4 a b 0 0 - big4 a b 0 0 mod 85 ^ 2), []. split.
    + cbn [a85_end app concat Z.ltb Z.compare]. change (pow85 (3 - 1)) with (85 ^ 2).
      pose proof (Z.mod_pos_bound (big4 a b 0 0) (85 ^ 2) ltac:(lia)).
      pose proof (Z.mod_le (big4 a b 0 0) (85 ^ 2) ltac:(lia) ltac:(lia)).
      assert (L : big4 a b 0 0 <= 255 * 256 ^ 3 + 255 * 256 ^ 2) by (unfold big4, is_byte in *; lia).
      rewrite u32_id by lia. rewrite app_nil_r. change (3 - 1) with 2.
      replace (big4 a b 0 0 - big4 a b 0 0 mod 85 ^ 2 + 85 ^ 2) with (big4 a b 0 0 + (85 ^ 2 - big4 a b 0 0 mod 85 ^ 2)) by lia.
      rewrite wide_put_top by (auto; lia). reflexivity.
    + cbn [ascii85]. set (v := big4 a b 0 0) in *.
      pose proof (a85_group v R (nth 2 (five v) 0 :: k)) as (G1 & _). cbv zeta in G1.
      pose proof (a85_group v R k) as (_ & G2 & _). cbv zeta in G2.
      unfold five in *. cbn [nth firstn app] in *. rewrite G1, G2. apply RID.
  - inversion_clear H as [|? ? Ha H1]. inversion_clear H1 as [|? ? Hb H2]. inversion_clear H2 as [|? ? Hc _].
    pose proof (big4_range a b c 0 Ha Hb Hc B0) as R.
    exists (4, big4 a b c 0 - big4 a b c 0 mod 85), []. split.
    + cbn [a85_end app concat Z.ltb Z.compare]. change (pow85 (4 - 1)) with 85.
      pose proof (Z.mod_pos_bound (big4 a b c 0) 85 ltac:(lia)).
      pose proof (Z.mod_le (big4 a b c 0) 85 ltac:(lia) ltac:(lia)).
      assert (L : big4 a b c 0 <= 255 * 256 ^ 3 + 255 * 256 ^ 2 + 255 * 256) by (unfold big4, is_byte in *; lia).
      rewrite u32_id by lia. rewrite app_nil_r. change (4 - 1) with 3.
      replace (big4 a b c 0 - big4 a b c 0 mod 85 + 85) with (big4 a b c 0 + (85 - big4 a b c 0 mod 85)) by lia.
      rewrite wide_put_top by (auto; lia). reflexivity.
    + cbn [ascii85]. set (v := big4 a b c 0) in *.
      pose proof (a85_group v R (nth 2 (five v) 0 :: nth 3 (five v) 0 :: k)) as (G1 & _). cbv zeta in G1.
      pose proof (a85_group v R (nth 3 (five v) 0 :: k)) as (_ & G2 & _). cbv zeta in G2.
      pose proof (a85_group v R k) as (_ & _ & G3 & _). cbv zeta in G3.
      unfold five in *. cbn [nth firstn app] in *. rewrite G1, G2, G3. apply RID.
  - inversion_clear H as [|? ? Ha H1]. inversion_clear H1 as [|? ? Hb H2]. inversion_clear H2 as [|? ? Hc H3].
    inversion_clear H3 as [|? ? Hd Hr]. pose proof (big4_range a b c d Ha Hb Hc Hd) as R.
    destruct (IH Hr) as (s1 & w1 & C & E).
    assert (W : wide_put (big4 a b c d) 4 = [a; b; c; d]).
    { rewrite <- (Z.add_0_r (big4 a b c d)). apply (wide_put_top 4); auto; lia. }
    exists s1, ([a; b; c; d] :: w1). split; [cbn [app concat]; rewrite C; reflexivity|].
    cbn [ascii85]. destruct (big4 a b c d =? 0) eqn:Z0.
    + apply Z.eqb_eq in Z0. rewrite Z0 in W. cbn [app]. cbn [a85_decode_block]. cbn [Z.eqb Pos.eqb].
      rewrite E, W. destruct (a85_decode_block s1 k) as [[s2 w2]| | |]; reflexivity.
    + set (v := big4 a b c d) in *.
      pose proof (a85_group v R (nth 2 (five v) 0 :: nth 3 (five v) 0 :: nth 4 (five v) 0 :: ascii85 r ++ k)) as (G1 & _). cbv zeta in G1.
      pose proof (a85_group v R (nth 3 (five v) 0 :: nth 4 (five v) 0 :: ascii85 r ++ k)) as (_ & G2 & _). cbv zeta in G2.
      pose proof (a85_group v R (nth 4 (five v) 0 :: ascii85 r ++ k)) as (_ & _ & G3 & _). cbv zeta in G3.
      pose proof (a85_group v R (ascii85 r ++ k)) as (_ & _ & _ & G4). cbv zeta in G4.
      unfold five in *. cbn [nth firstn app] in *. rewrite G1, G2, G3, G4, E, W.
      destruct (a85_decode_block s1 k) as [[s2 w2]| | |]; reflexivity.
Qed.

(** The decoder does not notice block boundaries before the end marker. *)
Lemma a85_decode_app a b : ~ In 126 a -> forall s,
  a85_decode_block s (a ++ b) =
  do (s1, w1) <- a85_decode_block s a; do (s2, w2) <- a85_decode_block s1 b; Ok (s2, w1 ++ w2).
Proof.
  induction a as [|c a IH]; intros N s; cbn [a85_decode_block app].
  - cbn [bind]. destruct (a85_decode_block s b) as [[? ?]| | |]; reflexivity.
  - assert (N' : ~ In 126 a) by (intro; apply N; right; assumption). specialize (IH N').
    assert (c =? 126 = false) as E126. { apply Z.eqb_neq. intro. apply N. left. assumption. }
    rewrite E126. destruct s as [n t]. destruct (c =? 122).
    + destruct (n =? 0); [|reflexivity]. rewrite IH. destruct (a85_decode_block (n, t) a) as [[s1 w1]| | |]; try reflexivity.
      cbn [bind]. destruct (a85_decode_block s1 b) as [[s2 w2]| | |]; reflexivity.
    + destruct (a85_skip c); [apply IH|]. destruct ((schar c <? 33) || (117 <? schar c)); [reflexivity|].
      destruct (n + 1 =? 5); [|apply IH]. rewrite IH.
      destruct (a85_decode_block (0, 0) a) as [[s1 w1]| | |]; try reflexivity.
      cbn [bind]. destruct (a85_decode_block s1 b) as [[s2 w2]| | |]; reflexivity.
Qed.

Lemma a85_blocks bl : forall s, ~ In 126 (concat bl) -> f_blocks a85_dec s bl = a85_decode_block s (concat bl).
Proof.
  induction bl as [|b r IH]; intros s N; [reflexivity|].
  cbn [concat] in *. rewrite in_app_iff in N. rewrite a85_decode_app by tauto.
  cbn [f_blocks f_block a85_dec]. destruct (a85_decode_block s b) as [[s1 w1]| | |]; try reflexivity.
  cbn [bind]. change (a85_decode_block s1 (concat r)) with (f_block a85_dec s1 (concat r)) in *.
  rewrite IH by tauto. reflexivity.
Qed.

Lemma ascii85_alphabet data : bytes_ok data -> Forall (fun c => 33 <= c <= 117 \/ c = 122) (ascii85 data).
Proof.
  assert (B0 : is_byte 0) by (unfold is_byte; lia).
  assert (F : forall v n, 0 <= v < 2 ^ 32 -> Forall (fun c => 33 <= c <= 117 \/ c = 122) (firstn n (five v))).
  { intros v n H. pose proof (five_chars v H) as Hf. rewrite Forall_forall in Hf |- *. intros x Hx. left.
    apply Hf. rewrite <- (firstn_skipn n). apply in_app_iff. left. exact Hx. }
  induction data as [|a|a b|a b c|a b c d r IH] using four_ind; intro H; cbn [ascii85].
  - constructor.
  - inversion_clear H as [|? ? Ha _]. apply F. apply big4_range; auto.
  - inversion_clear H as [|? ? Ha H1]. inversion_clear H1 as [|? ? Hb _]. apply F. apply big4_range; auto.
  - inversion_clear H as [|? ? Ha H1]. inversion_clear H1 as [|? ? Hb H2]. inversion_clear H2 as [|? ? Hc _].
    apply F. apply big4_range; auto.
  - inversion_clear H as [|? ? Ha H1]. inversion_clear H1 as [|? ? Hb H2]. inversion_clear H2 as [|? ? Hc H3].
    inversion_clear H3 as [|? ? Hd Hr]. apply Forall_app. split; [|apply IH; exact Hr].
    destruct (big4 a b c d =? 0).
    + constructor; [right; reflexivity|constructor].
    + apply (F (big4 a b c d) 5%nat). apply big4_range; auto.
Qed.

Lemma spaced_chars (P : Z -> Prop) t u : spaced t u -> Forall P t -> Forall (fun c => P c \/ white c = true) u.
Proof.
  induction 1 as [|c t u Hw Hs IH|c t u Hs IH]; intro F.
  - constructor.
  - constructor; [right; exact Hw|apply IH; exact F].
  - inversion_clear F. constructor; [left; assumption|apply IH; assumption].
Qed.

Lemma white_facts c : white c = true -> a85_skip c = true /\ c <> 126 /\ c <> 122.
Proof.
  unfold white, a85_skip. cbn [existsb]. intro H. lia.
Qed.

Lemma a85_spaced t u : spaced t u -> Forall (fun c => 33 <= c <= 117 \/ c = 122) t -> forall s k,
  a85_decode_block s (u ++ k) = a85_decode_block s (t ++ k).
Proof.
  induction 1 as [|c t u Hw Hs IH|c t u Hs IH]; intros F s k.
  - reflexivity.
  - apply white_facts in Hw. destruct Hw as (S & N1 & N2). cbn [app a85_decode_block].
    replace (c =? 122) with false by lia. replace (c =? 126) with false by lia. rewrite S. destruct s. apply IH. exact F.
  - inversion_clear F as [|? ? Fc Ft]. cbn [app a85_decode_block]. specialize (IH Ft).
    replace (c =? 126) with false by lia. destruct s as [n x]. rewrite !IH.
    destruct (c =? 122); [reflexivity|]. destruct (a85_skip c); [reflexivity|].
    destruct ((schar c <? 33) || (117 <? schar c)); [reflexivity|]. destruct (n + 1 =? 5); [reflexivity|]. reflexivity.
Qed.

Lemma spaced_no_tilde data u : bytes_ok data -> spaced (ascii85 data) u -> ~ In 126 u.
Proof.
  intros H S I. pose proof (spaced_chars _ _ _ S (ascii85_alphabet data H)) as F.
  rewrite Forall_forall in F. specialize (F _ I). cbv beta in F. destruct F as [[F | F] | F]; try lia. discriminate.
Qed.

(** Data with the end marker in the last block, the marker not cut in two *)
Lemma a85_conforming data u bl b rest : bytes_ok data -> spaced (ascii85 data) u -> concat bl ++ b = u ->
  yields a85_dec (bl ++ [b ++ 126 :: 62 :: rest]) data.
Proof.
  intros H S E.
  pose proof (spaced_no_tilde data u H S) as N. rewrite <- E, in_app_iff in N.
  destruct (a85_decodes data H (126 :: 62 :: rest)) as (s1 & w1 & C & D).
  rewrite <- (a85_spaced _ _ S (ascii85_alphabet data H)) in D. rewrite <- E in D. rewrite <- app_assoc in D.
  exists (w1 ++ a85_end s1). split; [|exact C].
  unfold f_run. cbn [f_begin a85_dec bind].
  assert (forall bl s l, ~ In 126 (concat bl) -> f_blocks a85_dec s (bl ++ [l]) = a85_decode_block s (concat bl ++ l)) as FB.
  { clear. induction bl as [|x r IH]; intros s l N; cbn [app f_blocks concat].
    - cbn [f_block a85_dec]. destruct (a85_decode_block s l) as [[? ?]| | |]; cbn [bind]; rewrite ?app_nil_r; reflexivity.
    - cbn [concat] in N. rewrite in_app_iff in N. rewrite <- app_assoc, a85_decode_app by tauto.
      cbn [f_block a85_dec]. destruct (a85_decode_block s x) as [[s1 w1]| | |]; try reflexivity. cbn [bind].
      change (@app (list Z)) with (@List.app (list Z)). rewrite IH by tauto. reflexivity. }
  change (f_blocks (mk_filt (Z * Z) (Ok (0, 0)) a85_decode_block (fun s => Ok (a85_end s)))) with (f_blocks a85_dec).
  rewrite FB by tauto. rewrite D.
  assert (a85_decode_block s1 (126 :: 62 :: rest) = Ok (s1, [])) as ->. { destruct s1. reflexivity. }
  cbn [bind]. rewrite app_nil_r. reflexivity.
Qed.

(** Without an end marker, cut anywhere *)
Lemma a85_unmarked data u bl : bytes_ok data -> spaced (ascii85 data) u -> concat bl = u -> yields a85_dec bl data.
Proof.
  intros H S E. pose proof (spaced_no_tilde data u H S) as N. rewrite <- E in N.
  destruct (a85_decodes data H []) as (s1 & w1 & C & D).
  rewrite <- (a85_spaced _ _ S (ascii85_alphabet data H)) in D. rewrite app_nil_r, <- E in D.
  exists (w1 ++ a85_end s1). split; [|exact C].
  unfold f_run. cbn [f_begin a85_dec bind].
  change (f_blocks (mk_filt (Z * Z) (Ok (0, 0)) a85_decode_block (fun s => Ok (a85_end s)))) with (f_blocks a85_dec).
  rewrite a85_blocks by exact N. rewrite D. cbn [a85_decode_block bind]. rewrite app_nil_r. reflexivity.
Qed.

Lemma spaced_refl t : spaced t t.
Proof. induction t; [constructor|apply sp_char; exact IHt]. Qed.

Lemma a85_undoes : undoes a85_dec a85_enc.
Proof.
  intros data H. exists (ascii85 data). split; [|split].
  - pose proof (ascii85_alphabet data H) as F. unfold bytes_ok. rewrite Forall_forall in *. intros x Hx.
    specialize (F x Hx). cbv beta in F. unfold is_byte. lia.
  - intros bl E. apply a85_enc_yields; assumption.
  - intros bl E. apply (a85_unmarked data (ascii85 data)); auto. apply spaced_refl.
Qed.
