(** Reading CMaps: tokens, codes, texts and the sections. *)
From Coq Require Import Lia String Permutation.
From Verif Require Import Base TokModel ReadEq WriteModel DictProofs TokProofs LexProofs ObjSpec ObjProofs FuelProofs ParseProofs TextModel TextSpec TextProofs CodeModel CodeSpec CodeProofs CodePropLemmas CMapModel CMapSpec.
Local Open Scope Z_scope.

(** ** Tokens *)
Notation pbuf := (rbuf ps_params).
Lemma pbuf_20 : (20 <= pbuf)%nat. Proof. apply Nat.leb_le. vm_compute. reflexivity. Qed.
Lemma pmax_1 : (rmax ps_params <? 1)%nat = false. Proof. reflexivity. Qed.
Lemma tok_blank buf ws k : blank ws -> tok buf (ws ++ k) = tok buf k.
Proof. induction 1 as [|c ws C F IH]; [reflexivity|]. cbn [app]. rewrite tok_ws by exact C. exact IH. Qed.
Lemma ps_blank ws k : blank ws -> ps_next (mk_tst [] (ws ++ k)) = ps_next (mk_tst [] k).
Proof. intros B. unfold ps_next, next_token. cbn [tq tin]. rewrite tok_blank by exact B. reflexivity. Qed.
Lemma tok_angle w k : (match w with c :: _ => c <> 60 | [] => True end) -> tok pbuf (60 :: w ++ 62 :: k) = Some ((TLAng, [60]), w ++ 62 :: k).
Proof.
  intros H60. unfold tok. cbn [tok_from]. change (is_ws 60) with false. cbn match. change (60 =? 37) with false. cbn match.
  change ((60 =? 60) || (60 =? 62)) with true. cbn match.
  destruct w as [|c w]; cbn [app]; [reflexivity|]. apply Z.eqb_neq in H60. rewrite H60. reflexivity.
Qed.
Lemma ps_fuel_S s : exists f, ps_fuel s = S (S (S f)).
Proof. unfold ps_fuel. exists (3 * (length (tin s) + length (tq s)))%nat. lia. Qed.
Lemma ps_hex ws w k : blank ws -> hex_word w -> ps_next (mk_tst [] (ws ++ 60 :: w ++ 62 :: k)) = Ok (Some (PVal (OStr true (hex_meaning w)), mk_tst [] k)).
Proof.
  intros B [W1 W2]. rewrite ps_blank by exact B. unfold ps_next, next_token. cbn [tq tin]. rewrite tok_angle by exact W2. cbn [determine bind].
  destruct (ps_fuel_S (mk_tst [] (w ++ 62 :: k))) as [f ->]. rewrite read_data_S. cbn [tin tq]. rewrite read_hex_meaning by exact W1. reflexivity.
Qed.
Lemma var_hex ws w k : blank ws -> hex_word w -> ps_variant (mk_tst [] (ws ++ 60 :: w ++ 62 :: k)) = Ok (OStr true (hex_meaning w), mk_tst [] k).
Proof.
  intros B [W1 W2]. unfold ps_variant, read_next, next_token. cbn [tq tin]. rewrite tok_blank, tok_angle by assumption.
  destruct (ps_fuel_S (mk_tst [] (ws ++ 60 :: w ++ 62 :: k))) as [f ->]. rewrite read_variant_S, pmax_1. cbn [determine bind]. rewrite read_data_S. cbn [tin tq]. rewrite read_hex_meaning by exact W1. reflexivity.
Qed.
Definition keyword (t : list Z) : Prop :=
  t <> [] /\ Forall (fun c => is_regular c = true) t /\ (length t <= 20)%nat /\ (forall s, determine pbuf false (TLit, t) s = Ok (DUnknown, s)).
Lemma ps_key ws t k : blank ws -> keyword t -> stops k -> ps_next (mk_tst [] (ws ++ t ++ k)) = Ok (Some (PKey t, mk_tst [] k)).
Proof.
  intros B (N & R & L & D) ST. rewrite ps_blank by exact B. unfold ps_next, next_token. cbn [tq tin]. rewrite tok_lit by (try assumption; pose proof pbuf_20; lia).
  change (rrefs ps_params) with false. rewrite D. cbn [bind]. destruct (ps_fuel_S (mk_tst [] k)) as [f ->]. reflexivity.
Qed.
Lemma tok_dec n k : 0 <= n < 2 ^ 63 -> stops k -> tok pbuf (dec n ++ k) = Some ((TLit, dec n), k).
Proof.
  intros N ST. apply tok_lit; auto.
  - apply (dec_spec n); lia.
  - apply dec_regular; lia.
  - pose proof (dec_len n 19 ltac:(lia) ltac:(lia)). pose proof pbuf_20; lia.
Qed.
Lemma determine_dec n s : 0 <= n < 2 ^ 63 -> determine pbuf false (TLit, dec n) s = Ok (DVal (ONum n), s).
Proof.
  intros N. assert (E : dec_signed n = dec n) by (unfold dec_signed; rewrite (proj2 (Z.ltb_ge n 0)) by lia; reflexivity). rewrite <- E. assert (I : int64_ok n = true) by (unfold int64_ok; lia).
  pose proof (determine_num ps_params n s I) as D. change (rrefs ps_params) with false in D. rewrite D. reflexivity.
Qed.
Lemma ps_num ws n k : blank ws -> 0 <= n < 2 ^ 63 -> stops k -> ps_next (mk_tst [] (ws ++ dec n ++ k)) = Ok (Some (PVal (ONum n), mk_tst [] k)).
Proof.
  intros B N ST. rewrite ps_blank by exact B. unfold ps_next, next_token. cbn [tq tin]. rewrite tok_dec by assumption. change (rrefs ps_params) with false. rewrite determine_dec by exact N. cbn [bind].
  destruct (ps_fuel_S (mk_tst [] k)) as [f ->]. reflexivity.
Qed.
Lemma var_num ws n k : blank ws -> 0 <= n < 2 ^ 63 -> stops k -> ps_variant (mk_tst [] (ws ++ dec n ++ k)) = Ok (ONum n, mk_tst [] k).
Proof.
  intros B N ST. unfold ps_variant, read_next, next_token. cbn [tq tin]. rewrite tok_blank, tok_dec by assumption.
  destruct (ps_fuel_S (mk_tst [] (ws ++ dec n ++ k))) as [f ->]. rewrite read_variant_S, pmax_1. change (rrefs ps_params) with false. rewrite determine_dec by exact N. reflexivity.
Qed.

(** ** Codes *)
Lemma fixed_hex_bytes n : forall num, 0 <= num -> fixed_hex (2 * n) num = flat_map hex_byte (append_bytes num n).
Proof.
  induction n as [|n IH]; intros num P; [reflexivity|]. replace (2 * S n)%nat with (S (S (2 * n))) by lia. cbn [fixed_hex append_bytes flat_map]. rewrite IH by exact P. unfold hex_byte. cbn [app].
  rewrite Z.shiftr_div_pow2 by lia. assert (Q : 2 ^ (8 * Z.of_nat n) = 16 ^ Z.of_nat (2 * n)) by (rewrite Nat2Z.inj_mul; change (Z.of_nat 2) with 2; rewrite !Z.pow_mul_r by lia; reflexivity).
  rewrite Q. assert (0 < 16 ^ Z.of_nat (2 * n)) by (apply Z.pow_pos_nonneg; lia). set (x := 16 ^ Z.of_nat (2 * n)) in *.
  rewrite Nat2Z.inj_succ, Z.pow_succ_r by lia. change (16 ^ Z.of_nat (2 * n)) with x. rewrite (Z.mul_comm 16 x). rewrite <- Z.div_div by lia. set (q := num / x).
  f_equal; [|f_equal]; f_equal; Z.to_euclidean_division_equations; lia.
Qed.
Lemma hex_meaning_bytes x : is_bytes x -> hex_meaning (flat_map hex_byte x) = x.
Proof.
  intros B. assert (B' : bytes_ok x) by (unfold bytes_ok; revert B; apply Forall_impl; unfold is_byte; lia).
  assert (W : ~ In 62 (flat_map hex_byte x)).
  { intros I. apply in_flat_map in I as (b & Ib & I). unfold is_bytes in B. rewrite Forall_forall in B. specialize (B b Ib). unfold hex_byte, hex_digit in I. destruct I as [I|[I|[]]]; [destruct (Z.ltb_spec (b / 16) 10)|destruct (Z.ltb_spec (b mod 16) 10)]; Z.to_euclidean_division_equations; lia. }
  pose proof (read_hex_write x [] B') as R. rewrite read_hex_meaning in R by exact W. congruence.
Qed.
Lemma hex_bytes_word x : is_bytes x -> hex_word (flat_map hex_byte x).
Proof.
  intros B. split.
  - intros I. apply in_flat_map in I as (b & Ib & I). unfold is_bytes in B. rewrite Forall_forall in B. specialize (B b Ib). unfold hex_byte, hex_digit in I. destruct I as [I|[I|[]]]; [destruct (Z.ltb_spec (b / 16) 10)|destruct (Z.ltb_spec (b mod 16) 10)]; Z.to_euclidean_division_equations; lia.
  - destruct x as [|b x]; [exact Logic.I|]. assert (0 <= b < 256) by (inversion B; assumption). cbn [flat_map hex_byte app]. unfold hex_digit. destruct (Z.ltb_spec (b / 16) 10); Z.to_euclidean_division_equations; lia.
Qed.
Definition code_word (c : code) : list Z := flat_map hex_byte (code_bytes c).
Lemma write_code_ok c : code_ok c -> write_code c = Ok (60 :: code_word c ++ [62]).
Proof.
  intros [SZ N]. unfold write_code. rewrite (proj2 (Z.leb_le 1 (c_size c))), (proj2 (Z.leb_le (c_size c) 4)) by lia. cbn [andb].
  assert (HL : (hex_len (c_num c) <= 2 * Z.to_nat (c_size c))%nat).
  { unfold hex_len. assert (Z.log2 (c_num c) < 8 * c_size c).
    { destruct (Z.eq_dec (c_num c) 0) as [->|]; [change (Z.log2 0) with 0; lia|]. apply Z.log2_lt_pow2; [lia|]. replace (2 ^ (8 * c_size c)) with (256 ^ c_size c) by (rewrite Z.pow_mul_r by lia; reflexivity). lia. }
    pose proof (Z.log2_nonneg (c_num c)). Z.to_euclidean_division_equations; lia. }
  rewrite Nat.max_l by exact HL. rewrite fixed_hex_bytes by lia. reflexivity.
Qed.
Lemma code_bytes_ok c : code_ok c -> is_bytes (code_bytes c) /\ length (code_bytes c) = Z.to_nat (c_size c) /\ number_of (code_bytes c) = c_num c.
Proof.
  intros [SZ N]. unfold code_bytes. destruct (append_bytes_ok (c_num c) (Z.to_nat (c_size c)) ltac:(lia)) as (A & B & C). split; [exact A|]. split; [exact B|]. rewrite C. rewrite Z2Nat.id by lia. apply Z.mod_small. lia.
Qed.
Lemma number_snoc l b : number_of (l ++ [b]) = number_of l * 256 + b.
Proof.
  induction l as [|a l IH]; cbn [app number_of length]; [cbn; lia|]. rewrite IH, app_length. cbn [length]. rewrite Nat.add_1_r, Nat2Z.inj_succ, Z.pow_succ_r by lia. ring.
Qed.
Lemma sum_bytes_number : forall l i, is_bytes l -> 0 <= i -> i + Z.of_nat (length l) <= 4 -> sum_bytes i (rev l) = number_of l * 256 ^ i.
Proof.
  induction l as [|b l IH] using rev_ind; intros i B P L; [reflexivity|]. rewrite rev_app_distr. cbn [rev app sum_bytes]. unfold is_bytes in B. apply Forall_app in B as [B1 B2]. assert (0 <= b < 256) by (inversion B2; assumption).
  rewrite app_length in L. cbn [length] in L. rewrite IH by (assumption || lia). rewrite number_snoc. rewrite Z.shiftl_mul_pow2 by lia. replace (2 ^ (8 * i)) with (256 ^ i) by (rewrite Z.pow_mul_r by lia; reflexivity).
  rewrite Z.add_1_r, Z.pow_succ_r by lia. pose proof (number_bound l B1) as NB. unfold u32. rewrite Z.mod_small; [ring|].
  assert (0 < 256 ^ i) by (apply Z.pow_pos_nonneg; lia).
  assert (256 ^ i * 256 ^ Z.of_nat (length l) * 256 <= 256 ^ 4).
  { rewrite <- Z.pow_add_r by lia. replace (256 ^ (i + Z.of_nat (length l)) * 256) with (256 ^ (i + Z.of_nat (length l) + 1)) by (rewrite (Z.pow_add_r 256 (i + Z.of_nat (length l)) 1) by lia; reflexivity). apply Z.pow_le_mono_r; lia. }
  change (256 ^ 4) with 4294967296 in *. change (2 ^ 32) with 4294967296.
  split; [nia|]. set (x := 256 ^ i) in *. set (y := 256 ^ Z.of_nat (length l)) in *. assert (number_of l + 1 <= y) by lia. nia.
Qed.
Lemma get_code_ok c l : code_ok c -> get_code (OStr true (hex_meaning (code_word c))) l =
  Ok (c, mk_cl (if c_size c <? cl_min l then c_size c else cl_min l) (if cl_max l <? c_size c then c_size c else cl_max l)).
Proof.
  intros CO. destruct (code_bytes_ok c CO) as (B & L & N). pose proof CO as [SZ _]. unfold code_word. rewrite hex_meaning_bytes by exact B. unfold get_code, code_of_variant. rewrite L, Z2Nat.id by lia.
  rewrite (proj2 (Z.ltb_ge 4 (c_size c))) by lia. cbn [bind]. rewrite sum_bytes_number by (try assumption; rewrite ?L; lia). rewrite N, Z.pow_0_r, Z.mul_1_r. destruct c; reflexivity.
Qed.

(** ** Texts *)
Lemma points_hex cps : flat_map hexv (points_text cps) = flat_map hexv (flat_map hex_point cps).
Proof.
  induction cps as [|cp cps IH]; [reflexivity|]. destruct cps as [|d cps]; [cbn [points_text flat_map]; rewrite app_nil_r; reflexivity|].
  change (points_text (cp :: d :: cps)) with (hex_point cp ++ 32 :: points_text (d :: cps)). rewrite !flat_map_app. cbn [flat_map]. change (hexv 32) with (@nil Z). cbn [app]. rewrite IH. cbn [flat_map]. rewrite !flat_map_app. reflexivity.
Qed.
Lemma flat_map_flat_map (A B C : Type) (f : A -> list B) (g : B -> list C) l : flat_map g (flat_map f l) = flat_map (fun x => flat_map g (f x)) l.
Proof. induction l as [|x l IH]; [reflexivity|]. cbn [flat_map]. rewrite flat_map_app, IH. reflexivity. Qed.
Lemma points_bytes cps : flat_map hex_point cps = flat_map hex_byte (flat_map unit_be (flat_map to16 cps)).
Proof. unfold hex_point. rewrite <- (flat_map_flat_map _ _ _ (fun cp => flat_map unit_be (to16 cp)) hex_byte). rewrite <- (flat_map_flat_map _ _ _ to16 unit_be). reflexivity. Qed.
Lemma points_utf16 cps : scalars cps -> flat_map hex_point cps = flat_map hex_byte (utf16be_text cps).
Proof. intros SC. rewrite points_bytes, flat_map_to16 by exact SC. reflexivity. Qed.
Lemma bytes_is x : bytes_ok x -> is_bytes x.
Proof. unfold bytes_ok, is_bytes. apply Forall_impl. unfold is_byte. lia. Qed.
Lemma points_meaning cps : scalars cps -> hex_meaning (points_text cps) = utf16be_text cps.
Proof.
  intros SC. unfold hex_meaning. change (fun c => match hex_val c with Some v => [v] | None => [] end) with hexv. rewrite points_hex, points_utf16 by exact SC.
  exact (hex_meaning_bytes _ (bytes_is _ (utf16be_bytes cps SC))).
Qed.
Lemma in_points c cps : In c (points_text cps) -> c = 32 \/ In c (flat_map hex_point cps).
Proof.
  induction cps as [|cp cps IH]; [intros []|]. destruct cps as [|d cps]; [cbn [points_text flat_map]; rewrite app_nil_r; auto|].
  change (points_text (cp :: d :: cps)) with (hex_point cp ++ 32 :: points_text (d :: cps)). cbn [flat_map] in *. intros I. apply in_app_or in I as [I|[<-|I]]; [right; apply in_or_app; auto|auto|]. destruct (IH I) as [->|J]; [auto|]. right. apply in_or_app. right. exact J.
Qed.
Lemma points_word cps : scalars cps -> hex_word (points_text cps).
Proof.
  intros SC. pose proof (hex_bytes_word _ (bytes_is _ (utf16be_bytes cps SC))) as [W1 W2]. rewrite <- points_utf16 in W1, W2 by exact SC. split.
  - intros I. destruct (in_points _ _ I) as [E|J]; [discriminate|]. exact (W1 J).
  - destruct cps as [|cp cps]; [exact Logic.I|]. cbn [flat_map] in W2. assert (N : exists x r, hex_point cp = x :: r).
    { unfold hex_point, to16. destruct (65535 <? cp); cbn; eauto. }
    destruct N as (x & r & E). destruct cps as [|d cps]; [cbn [points_text]; rewrite E in *; exact W2|]. change (points_text (cp :: d :: cps)) with (hex_point cp ++ 32 :: points_text (d :: cps)). rewrite E in *. exact W2.
Qed.
Lemma string_mapping_points cps : scalars cps -> string_mapping (hex_meaning (points_text cps)) = Ok cps.
Proof. intros SC. unfold string_mapping. rewrite points_meaning, read_be_text by exact SC. cbn [bind]. apply TextProofs.points_text. exact SC. Qed.
