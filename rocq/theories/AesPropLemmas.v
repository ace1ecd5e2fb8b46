(** Lemmas for the theorems on AES *)
From Verif Require Import Base ChainProofs AesModel AesSpec AesProofs.
Local Open Scope Z_scope.

Lemma land_16 a : 0 <= a < 2 ^ 64 -> Z.land a (u64 (-16)) = a / 16 * 16.
Proof.
  intros B. change (u64 (-16)) with (Z.ldiff (Z.ones 64) (Z.ones 4)). replace (Z.land a (Z.ldiff (Z.ones 64) (Z.ones 4))) with (Z.ldiff (Z.land a (Z.ones 64)) (Z.ones 4)).
  - rewrite Z.land_ones by lia. rewrite Z.mod_small by lia. rewrite Z.ldiff_ones_r, Z.shiftl_mul_pow2, Z.shiftr_div_pow2 by lia. reflexivity.
  - apply Z.bits_inj'. intros n N. rewrite !Z.ldiff_spec, !Z.land_spec, Z.ldiff_spec. destruct (Z.testbit a n); reflexivity.
Qed.
Lemma stream_length_ok n : 0 <= n < 2 ^ 63 -> stream_length n = 32 + 16 * (n / 16).
Proof.
  intros B. unfold stream_length. rewrite land_16 by (unfold u64; apply Z.mod_pos_bound; lia). unfold u64. rewrite (Z.mod_small (n + 15)) by lia. pose proof (Z.div_mod n 16 ltac:(lia)) as DM. pose proof (Z.mod_pos_bound n 16 ltac:(lia)) as M.
  set (q := n / 16) in *. set (m := n mod 16) in *. cbv zeta. destruct (Z.eqb_spec m 0) as [M0|M0].
  - replace ((n + 15) / 16) with q by (apply (Z.div_unique_pos _ _ _ 15); lia). rewrite !Z.mod_small by (rewrite ?Z.mod_small; lia). rewrite ?Z.mod_small; lia.
  - replace ((n + 15) / 16) with (q + 1) by (apply (Z.div_unique_pos _ _ _ (m - 1)); lia). rewrite ?Z.mod_small; lia.
Qed.
Lemma skipn_skipn_add {X} (a b : nat) (l : list X) : skipn a (skipn b l) = skipn (b + a) l.
Proof. revert l. induction b as [|b IH]; intros l; [reflexivity|]. destruct l; cbn; [apply skipn_nil|apply IH]. Qed.
Section Cipher.
  Context (E D : list Z -> list Z) (ED : cipher E D).
  Lemma padded_blocks data : exists bs, blocks_of_16 bs /\ concat bs = padded data /\ length bs = (length data / 16 + 1)%nat.
  Proof. apply make_blocks, padded_length. Qed.
  Lemma encrypted_length iv data c : length iv = 16%nat -> encrypted E iv data c -> length c = (32 + 16 * (length data / 16))%nat.
  Proof.
    intros I (bs & F & P & ->). rewrite app_length, I. rewrite concat_16 by (apply (chain_16 E D ED); assumption). rewrite chain_length. assert (length (concat bs) = length (padded data)) as X by (rewrite P; reflexivity). rewrite concat_16, padded_length in X by exact F. lia.
  Qed.
  (** ** Strings *)
  Lemma encrypt_ok iv data : length iv = 16%nat -> Z.of_nat (length data) < 2 ^ 63 -> exists c, encrypt_to E iv data = Ok c /\ encrypted E iv data c.
  Proof.
    intros I B. destruct (padded_blocks data) as (bs & F & P & L). assert (X : encrypted E iv data (iv ++ concat (chain E iv bs))) by (exists bs; repeat split; assumption). exists (iv ++ concat (chain E iv bs)). split; [|exact X].
    pose proof (encrypted_length iv data _ I X) as LX. unfold encrypt_to, base_encrypt. cbv zeta. fold (padded data). rewrite <- P, <- L, cbc_chain by exact F. rewrite stream_length_ok by lia. rewrite LX.
    replace (32 + 16 * (Z.of_nat (length data) / 16)) with (Z.of_nat (32 + 16 * (length data / 16))) by (rewrite Nat2Z.inj_add, Nat2Z.inj_mul, Nat2Z.inj_div; reflexivity). rewrite Z.ltb_irrefl, Nat2Z.id, Nat.sub_diag. cbn [repeat]. rewrite app_nil_r. reflexivity.
  Qed.
  Lemma decrypt_ok iv data c : length iv = 16%nat -> Z.of_nat (length data) < 2 ^ 63 -> encrypted E iv data c -> decrypt_to D c = Ok data.
  Proof.
    intros I B X. pose proof (encrypted_length iv data c I X) as L. destruct X as (bs & F & P & ->). set (k := (length data / 16)%nat) in *. pose proof (Nat.div_mod (length data) 16 ltac:(lia)) as DM. fold k in DM. pose proof (mod16 (length data)) as M16.
    unfold decrypt_to. rewrite L. cbv zeta. destruct (Z.leb_spec (Z.of_nat (32 + 16 * k)) 16); [lia|]. replace (Z.of_nat (32 + 16 * k) - 16) with (Z.of_nat (k + 1) * 16) by lia. rewrite Z.mod_mul by lia. cbn [Z.eqb negb].
    rewrite firstn_block, skipn_block by exact I. destruct (padded_split data bs F P) as (A & b & n & -> & N & HB & HA & LD). pose proof F as F0. apply Forall_app in F as [FA FB]. assert (B16 : length b = 16%nat) by (inversion FB; assumption). rewrite app_length in *. cbn [length] in *.
    pose proof (update_ok E D ED (A ++ [b]) iv 0 (length A + 1) [] F0 I ltac:(lia) ltac:(rewrite app_length; cbn [length]; lia)) as U. cbv zeta in U. cbn [firstn skipn concat] in U. rewrite app_nil_r in U. rewrite (firstn_all2 (n := 16 * (length A + 1))) in U by (rewrite concat_16 by (apply (chain_16 E D ED); assumption); rewrite chain_length, app_length; cbn [length]; lia).
    rewrite U. replace (0 + (length A + 1) - 1)%nat with (length A) by lia. rewrite firstn_app, Nat.sub_diag, firstn_O, app_nil_r, firstn_all, skipn_app, Nat.sub_diag, skipn_all. cbn [skipn app chain firstn concat]. cbv zeta. rewrite app_nil_r.
    set (p := last (chain E iv A) iv). assert (LP : length p = 16%nat) by (apply (last_chain_16 E D ED); assumption). rewrite (final_ok E D ED p b (skipn (16 * length A) data) n LP N HB B16). cbn [bind]. rewrite HA, firstn_skipn.
    unfold u64. rewrite (Z.mod_small (Z.of_nat (k + 1) * 16)) by lia. rewrite Z.mod_mul by lia. rewrite Z.mod_small by lia. destruct (Z.ltb_spec (Z.of_nat (k + 1) * 16 + 16 - 0) (Z.of_nat (length data))); [lia|reflexivity].
  Qed.
  (** ** Streams *)
  Definition inv (s : ain) (R : list (list Z)) (p : list Z) (h : nat) (more : list Z) : Prop :=
    ieof s = false /\ init s = false /\ cx s = mk_ctx p (concat (firstn h (chain E p R))) /\ dev s = concat (skipn h (chain E p R)) ++ more /\
    left s = 16 * Z.of_nat (length R - h) /\ (h <= 1)%nat /\ (h < length R)%nat /\ blocks_of_16 R /\ length p = 16%nat.
  Lemma skipn_16 h l : blocks_of_16 l -> blocks_of_16 (skipn h l).
  Proof. intros F. unfold blocks_of_16. rewrite <- (firstn_skipn h l) in F. apply Forall_app in F. apply F. Qed.
  Lemma firstn_16 h l : blocks_of_16 l -> blocks_of_16 (firstn h l).
  Proof. intros F. unfold blocks_of_16. rewrite <- (firstn_skipn h l) in F. apply Forall_app in F. apply F. Qed.
  (** A read that leaves blocks *)
  Lemma read_part s R p h more m : inv s R p h more -> (1 <= m)%nat -> (m < length R - h)%nat ->
    exists s' p', read_buffer D s (16 * Z.of_nat m) = Ok (concat (firstn (h + m - 1) R), None, s') /\ inv s' (skipn (h + m - 1) R) p' 1 more.
  Proof.
    intros (IE & IN & C & DV & LF & H & HR & F & P) M T. unfold read_buffer. rewrite IE, IN. cbn [bind]. set (q := (h + m - 1)%nat). set (CH := chain E p R) in *. assert (CF : blocks_of_16 CH) by (apply (chain_16 E D ED); assumption). assert (CL : length CH = length R) by apply chain_length.
    rewrite LF, C, DV. replace (Z.to_nat (Z.min (16 * Z.of_nat m) (16 * Z.of_nat (length R - h)))) with (16 * m)%nat by lia.
    pose proof (update_ok E D ED R p h m more F P H ltac:(lia)) as U. cbv zeta in U. fold CH in U. fold q in U. rewrite U. set (p' := last (chain E p (firstn q R)) p) in *.
    rewrite firstn_concat by (try (apply skipn_16; exact CF); rewrite skipn_length; lia). assert (LI : length (concat (firstn m (skipn h CH))) = (16 * m)%nat) by (rewrite concat_16 by (apply firstn_16, skipn_16, CF); rewrite firstn_length, skipn_length; lia). rewrite LI.
    rewrite skipn_concat by (try (apply skipn_16; exact CF); rewrite skipn_length; lia). rewrite skipn_skipn_add. cbv zeta.
    assert (LO : length (concat (firstn q R)) = (16 * q)%nat) by (rewrite concat_16 by (apply firstn_16, F); rewrite firstn_length; lia). rewrite LO. destruct (Z.ltb_spec (16 * Z.of_nat m) (Z.of_nat (16 * q))); [lia|].
    destruct (Z.eqb_spec (16 * Z.of_nat (length R - h) - Z.of_nat (16 * m)) 0); [lia|]. cbn [orb].
    assert (NE : skipn (h + m) CH <> []) by (intros X; apply (f_equal (@length (list Z))) in X; rewrite skipn_length in X; cbn in X; lia).
    assert (CC : CH = chain E p (firstn q R) ++ chain E p' (skipn q R)) by (unfold p'; rewrite <- chain_app, firstn_skipn; reflexivity).
    assert (SC : skipn (h + m) CH = skipn 1 (chain E p' (skipn q R))). { rewrite CC, skipn_app, chain_length, firstn_length, skipn_all2 by (rewrite chain_length, firstn_length; lia). cbn [app]. f_equal. lia. }
    assert (ND : concat (skipn (h + m) CH) ++ more <> []). { pose proof (skipn_16 (h + m) CH CF) as S16. destruct (skipn (h + m) CH) as [|x y]; [congruence|]. inversion S16 as [|? ? X16 _]; subst. cbn. destruct x; [discriminate|]. discriminate. }
    destruct (concat (skipn (h + m) CH) ++ more) as [|d0 d1] eqn:DQ; [congruence|]. eexists _, p'. split; [reflexivity|]. unfold inv. cbn [ieof init cx dev left]. repeat split.
    - rewrite <- DQ, SC. reflexivity.
    - rewrite skipn_length. lia.
    - lia.
    - rewrite skipn_length. lia.
    - apply skipn_16, F.
    - apply (last_chain_16 E D ED); [apply firstn_16, F|exact P].
  Qed.
  (** A read that takes the last block *)
  Lemma read_last s A b d n p h more m : inv s (A ++ [b]) p h more -> (1 <= n <= 16)%nat -> b = d ++ repeat (Z.of_nat n) n -> (length A + 1 - h <= m)%nat ->
    exists s', read_buffer D s (16 * Z.of_nat m) = Ok (drain_buffer s' (16 * Z.of_nat m) (concat A)) /\ ieof s' = true /\ drain s' = Z.of_nat (length d) /\ firstn (length d) (temp s') = d.
  Proof.
    intros (IE & IN & C & DV & LF & H & HR & F & P) N HB T. rewrite app_length in *. cbn [length] in *. unfold read_buffer. rewrite IE, IN. cbn [bind]. set (CH := chain E p (A ++ [b])) in *. assert (CF : blocks_of_16 CH) by (apply (chain_16 E D ED); assumption). assert (CL : length CH = (length A + 1)%nat) by (unfold CH; rewrite chain_length, app_length; reflexivity).
    rewrite LF, C, DV. set (t := (length A + 1 - h)%nat) in *. replace (Z.to_nat (Z.min (16 * Z.of_nat m) (16 * Z.of_nat t))) with (16 * t)%nat by lia.
    pose proof (update_ok E D ED (A ++ [b]) p h t more F P H ltac:(rewrite app_length; cbn [length]; lia)) as U. cbv zeta in U. fold CH in U. rewrite U. replace (h + t - 1)%nat with (length A) by lia.
    rewrite firstn_concat by (try (apply skipn_16; exact CF); rewrite skipn_length; lia). assert (LI : length (concat (firstn t (skipn h CH))) = (16 * t)%nat) by (rewrite concat_16 by (apply firstn_16, skipn_16, CF); rewrite firstn_length, skipn_length; lia). rewrite LI. cbv zeta.
    rewrite (firstn_app (length A)), Nat.sub_diag, firstn_O, app_nil_r, firstn_all, (skipn_app (length A)), Nat.sub_diag, (skipn_all2 (n := length A)) by lia. cbn [skipn app chain]. cbv zeta. cbn [firstn concat]. rewrite app_nil_r.
    apply Forall_app in F as [FA FB]. assert (B16 : length b = 16%nat) by (inversion FB; assumption). set (p' := last (chain E p A) p). assert (LP : length p' = 16%nat) by (apply (last_chain_16 E D ED); assumption).
    rewrite concat_16 by exact FA. destruct (Z.ltb_spec (16 * Z.of_nat m) (Z.of_nat (16 * length A))); [lia|]. replace (16 * Z.of_nat t - Z.of_nat (16 * t)) with 0 by lia. cbn [Z.eqb orb].
    rewrite (final_ok E D ED p' b d n LP N HB B16). cbn [bind]. eexists. split; [reflexivity|]. cbn [ieof drain temp]. split; [reflexivity|]. split; [reflexivity|]. unfold store. rewrite firstn_app, Nat.sub_diag, firstn_O, app_nil_r. apply firstn_all.
  Qed.
  Lemma drain_all s len out d : drain s = Z.of_nat (length d) -> firstn (length d) (temp s) = d -> Z.of_nat (length d) <= len - Z.of_nat (length out) -> exists s', drain_buffer s len out = (out ++ d, Some true, s').
  Proof.
    intros DR T L. unfold drain_buffer. rewrite DR, Z.min_r by exact L. cbv zeta. rewrite Nat2Z.id, T, Z.sub_diag. cbn [Z.eqb]. eexists. reflexivity.
  Qed.
  Lemma copy_ok fuel : forall s A b d n p h more, inv s (A ++ [b]) p h more -> (1 <= n <= 16)%nat -> b = d ++ repeat (Z.of_nat n) n -> (length A + 2 <= fuel)%nat ->
    copy_to fuel D s (16 * Z.of_nat (length A + 2)) (Some false) = Ok (concat A ++ d).
  Proof.
    induction fuel as [|f IH]; intros s A b d n p h more I N HB FU; [lia|]. pose proof I as (_ & _ & _ & _ & _ & H & _ & F & _). apply Forall_app in F as [FA FB]. assert (B16 : length b = 16%nat) by (inversion FB; assumption).
    assert (LD : (length d <= 15)%nat) by (rewrite HB, app_length, repeat_length in B16; lia).
    cbn [copy_to]. set (m := Nat.min 256 (length A + 2)). replace (Z.min 4096 (16 * Z.of_nat (length A + 2))) with (16 * Z.of_nat m) by lia.
    destruct (Nat.le_gt_cases (length A + 1 - h) m) as [T|T].
    - destruct (read_last s A b d n p h more m I N HB T) as (s' & -> & IE & DR & TE). cbn [bind]. destruct (Nat.le_gt_cases (length A + 1) m) as [G|G].
      + destruct (drain_all s' (16 * Z.of_nat m) (concat A) d DR TE) as (s2 & ->); [rewrite concat_16 by exact FA; lia|]. destruct (_ =? 0); reflexivity.
      + assert (HM : m = length A /\ h = 1%nat) by lia. destruct HM as [HM ->]. unfold drain_buffer at 1. rewrite DR, concat_16 by exact FA. replace (16 * Z.of_nat m - Z.of_nat (16 * length A)) with 0 by lia. rewrite Z.min_l by lia. cbv zeta. cbn [Z.to_nat firstn]. rewrite app_nil_r, concat_16, Z.sub_0_r by exact FA.
        destruct (Z.eqb_spec (16 * Z.of_nat (length A + 2) - Z.of_nat (16 * length A)) 0); [lia|]. destruct (Z.eqb_spec (Z.of_nat (length d)) 0) as [D0|D0].
        * destruct d; [rewrite app_nil_r; reflexivity|cbn in D0; lia].
        * destruct f as [|f]; [lia|]. cbn [copy_to]. unfold read_buffer at 1. cbn [ieof]. rewrite IE. cbn [bind]. match goal with |- context [drain_buffer ?x ?l []] => destruct (drain_all x l [] d) as (s2 & ->); [cbn [drain]; lia|exact TE|cbn [length]; lia|] end.
          cbn [app]. destruct (_ =? 0); reflexivity.
    - destruct (read_part s (A ++ [b]) p h more m I ltac:(lia) ltac:(rewrite app_length; cbn [length]; lia)) as (s' & p' & -> & I'). cbn [bind]. set (q := (h + m - 1)%nat) in *.
      assert (Q : (1 <= q < length A)%nat) by lia. rewrite firstn_app in *. rewrite skipn_app in I'. replace (q - length A)%nat with 0%nat in * by lia. rewrite firstn_O, app_nil_r. cbn [skipn] in I'.
      assert (LQ : length (concat (firstn q A)) = (16 * q)%nat) by (rewrite concat_16 by (apply firstn_16, FA); rewrite firstn_length; lia). rewrite LQ. destruct (Z.eqb_spec (16 * Z.of_nat (length A + 2) - Z.of_nat (16 * q)) 0); [lia|].
      replace (16 * Z.of_nat (length A + 2) - Z.of_nat (16 * q)) with (16 * Z.of_nat (length (skipn q A) + 2)) by (rewrite skipn_length; lia). rewrite (IH s' (skipn q A) b d n p' 1%nat more I' N HB) by (rewrite skipn_length; lia). cbn [bind]. rewrite app_assoc, <- concat_app, firstn_skipn. reflexivity.
  Qed.
  (** The state after the vector was read *)
  Lemma opened iv R more : length iv = 16%nat -> blocks_of_16 R -> R <> [] -> Z.of_nat (length R) < 2 ^ 59 -> exists s, inv s R iv 0 more /\
    forall len, read_buffer D (aes_open (iv ++ concat (chain E iv R) ++ more) (16 * Z.of_nat (length R + 1))) len = read_buffer D s len.
  Proof.
    intros I F NE B. eexists (mk_ain (concat (chain E iv R) ++ more) (16 * Z.of_nat (length R)) false false (mk_ctx iv []) [] (2 ^ 64 - 1)). split.
    - unfold inv. cbn [ieof init cx dev left firstn skipn concat]. rewrite Nat.sub_0_r. assert (length R <> 0%nat) by (destruct R; [congruence|cbn; lia]). repeat split; try assumption; lia.
    - intros len. unfold read_buffer. cbn [aes_open ieof init dev left temp drain]. destruct (Nat.ltb_spec (length (iv ++ concat (chain E iv R) ++ more)) 16) as [L|_]; [rewrite app_length in L; lia|]. cbn [bind]. rewrite firstn_block, skipn_block by exact I.
      replace (u64 (16 * Z.of_nat (length R + 1) - 16)) with (16 * Z.of_nat (length R)) by (unfold u64; rewrite Z.mod_small; lia). reflexivity.
  Qed.
  Lemma opened_copy s1 s2 fuel size eof : (forall len, read_buffer D s1 len = read_buffer D s2 len) -> copy_to fuel D s1 size eof = copy_to fuel D s2 size eof.
  Proof. intros H. destruct fuel; [reflexivity|]. cbn [copy_to]. rewrite H. reflexivity. Qed.
  Lemma load_ok iv data c more : length iv = 16%nat -> Z.of_nat (length data) < 2 ^ 62 -> encrypted E iv data c -> load_stream D (c ++ more) (Z.of_nat (length c)) (Some false) = Ok data.
  Proof.
    intros I B X. pose proof (encrypted_length iv data c I X) as L. destruct X as (bs & F & P & ->). destruct (padded_split data bs F P) as (A & b & n & -> & N & HB & HA & LD). set (k := (length data / 16)%nat) in *. pose proof (Nat.div_mod (length data) 16 ltac:(lia)) as DM. fold k in DM. pose proof (mod16 (length data)) as M16.
    destruct (opened iv (A ++ [b]) more I F) as (s & IV & RB); [destruct A; discriminate|rewrite app_length; cbn [length]; lia|]. unfold load_stream. rewrite <- !app_assoc. replace (Z.of_nat (length (iv ++ concat (chain E iv (A ++ [b]))))) with (16 * Z.of_nat (length (A ++ [b]) + 1)) by (rewrite app_length; cbn [length]; lia).
    rewrite (opened_copy _ s _ _ _ RB). replace (length (A ++ [b]) + 1)%nat with (length A + 2)%nat by (rewrite app_length; cbn [length]; lia). rewrite (copy_ok _ s A b _ n iv 0%nat more IV N HB).
    - rewrite HA, firstn_skipn. reflexivity.
    - rewrite !app_length in *. lia.
  Qed.
  Lemma load_small iv data c more eof : length iv = 16%nat -> Z.of_nat (length c) <= 4112 -> encrypted E iv data c -> load_stream D (c ++ more) (Z.of_nat (length c)) eof = Ok data.
  Proof.
    intros I B X. pose proof (encrypted_length iv data c I X) as L. destruct X as (bs & F & P & ->). destruct (padded_split data bs F P) as (A & b & n & -> & N & HB & HA & LD). set (k := (length data / 16)%nat) in *. pose proof (Nat.div_mod (length data) 16 ltac:(lia)) as DM. fold k in DM. pose proof (mod16 (length data)) as M16.
    destruct (opened iv (A ++ [b]) more I F) as (s & IV & RB); [destruct A; discriminate|rewrite app_length; cbn [length]; lia|]. unfold load_stream. rewrite <- !app_assoc. replace (Z.of_nat (length (iv ++ concat (chain E iv (A ++ [b]))))) with (16 * Z.of_nat (length (A ++ [b]) + 1)) by (rewrite app_length; cbn [length]; lia).
    rewrite (opened_copy _ s _ _ _ RB). replace (length (A ++ [b]) + 1)%nat with (length A + 2)%nat by (rewrite app_length; cbn [length]; lia). apply Forall_app in F as [FA FB]. assert (B16 : length b = 16%nat) by (inversion FB; assumption).
    cbn [copy_to]. set (m := Nat.min 256 (length A + 2)). replace (Z.min 4096 (16 * Z.of_nat (length A + 2))) with (16 * Z.of_nat m) by lia. destruct (read_last s A b _ n iv 0%nat more m IV N HB ltac:(lia)) as (s' & -> & IE & DR & TE). cbn [bind].
    destruct (drain_all s' (16 * Z.of_nat m) (concat A) _ DR TE) as (s2 & ->); [rewrite skipn_length, concat_16 by exact FA; lia|]. rewrite HA, firstn_skipn. destruct (_ =? 0); reflexivity.
  Qed.
  Lemma load_large iv data c more : length iv = 16%nat -> Z.of_nat (length data) < 2 ^ 62 -> 4112 < Z.of_nat (length c) -> encrypted E iv data c -> load_stream D (c ++ more) (Z.of_nat (length c)) None = UB.
  Proof.
    intros I B G X. pose proof (encrypted_length iv data c I X) as L. destruct X as (bs & F & P & ->). destruct (padded_split data bs F P) as (A & b & n & -> & N & HB & HA & LD). set (k := (length data / 16)%nat) in *. pose proof (Nat.div_mod (length data) 16 ltac:(lia)) as DM. fold k in DM. pose proof (mod16 (length data)) as M16.
    destruct (opened iv (A ++ [b]) more I F) as (s & IV & RB); [destruct A; discriminate|rewrite app_length; cbn [length]; lia|]. unfold load_stream. rewrite <- !app_assoc. replace (Z.of_nat (length (iv ++ concat (chain E iv (A ++ [b]))))) with (16 * Z.of_nat (length (A ++ [b]) + 1)) by (rewrite app_length; cbn [length]; lia).
    rewrite (opened_copy _ s _ _ _ RB). cbn [copy_to]. assert (LA : (length (A ++ [b]) > 256)%nat) by (rewrite app_length; cbn [length]; lia). replace (Z.min 4096 (16 * Z.of_nat (length (A ++ [b]) + 1))) with (16 * Z.of_nat 256) by lia.
    destruct (read_part s (A ++ [b]) iv 0%nat more 256 IV ltac:(lia) ltac:(lia)) as (s' & p' & -> & _). cbn [bind]. rewrite concat_16 by (apply firstn_16, F). rewrite firstn_length. destruct (Z.eqb_spec (16 * Z.of_nat (length (A ++ [b]) + 1) - Z.of_nat (16 * Nat.min (0 + 256 - 1) (length (A ++ [b])))) 0); [lia|reflexivity].
  Qed.
End Cipher.
Lemma dec_length D k : forall prev buf, (length prev <= 16)%nat -> (length (fst (dec_blocks D k prev buf)) <= 16 * k)%nat.
Proof.
  induction k as [|k IH]; intros prev buf P; cbn [dec_blocks]; [cbn; lia|]. cbv zeta. specialize (IH (firstn 16 buf) (skipn 16 buf) ltac:(rewrite firstn_length; lia)). destruct (dec_blocks D k (firstn 16 buf) (skipn 16 buf)) as [r p]. cbn [fst] in *. rewrite app_length. unfold xors. rewrite map_length, combine_length. lia.
Qed.
Lemma final_length D c d : final D c = Ok d -> (length d <= 15)%nat.
Proof.
  unfold final. destruct (Nat.eqb _ 16); [|discriminate]. cbv zeta. set (b := xors _ _). destruct (Z.ltb_spec (last b 0) 1); [discriminate|]. destruct (Z.ltb_spec 16 (last b 0)); [discriminate|]. cbn [orb]. destruct (forallb _ _); [|discriminate]. intros H1. apply ok_inj in H1. subst. rewrite firstn_length. lia.
Qed.
(** Any bytes are decrypted without undefined behaviour *)
Lemma decrypt_total D view : Z.of_nat (length view) < 2 ^ 63 -> (exists d, decrypt_to D view = Ok d) \/ decrypt_to D view = Err EInternalLogic.
Proof.
  intros B. unfold decrypt_to. cbv zeta. destruct (Z.leb_spec (Z.of_nat (length view)) 16); [left; eauto|]. destruct (Z.eqb_spec ((Z.of_nat (length view) - 16) mod 16) 0) as [M|]; [|right; reflexivity]. cbn [negb].
  destruct (update D (mk_ctx (firstn 16 view) []) (skipn 16 view)) as [out c] eqn:U. destruct (final D c) as [d|e| |] eqn:F; cbn [bind].
  - apply final_length in F. unfold update in U. cbn [pend cprev app] in U. pose proof (dec_length D ((length (skipn 16 view) - 1) / 16) (firstn 16 view) (skipn 16 view) ltac:(rewrite firstn_length; lia)) as L. destruct (dec_blocks D _ (firstn 16 view) (skipn 16 view)) as [o p]. injection U as <- <-. cbn [fst] in L.
    rewrite skipn_length in L. pose proof (Nat.div_mod (length view - 16 - 1) 16 ltac:(lia)) as DM. rewrite app_length. unfold u64. rewrite (Z.mod_small (Z.of_nat (length view) - 16)) by lia. rewrite M. rewrite Z.mod_small by lia.
    destruct (Z.ltb_spec (Z.of_nat (length view) - 16 + 16 - 0) (Z.of_nat (length o + length d))); [lia|left; eauto].
  - right. revert F. unfold final. destruct (Nat.eqb _ 16); [|congruence]. cbv zeta. destruct (_ || _); [congruence|]. destruct (forallb _ _); congruence.
  - exfalso. revert F. unfold final. destruct (Nat.eqb _ 16); [|congruence]. cbv zeta. destruct (_ || _); [congruence|]. destruct (forallb _ _); congruence.
  - exfalso. revert F. unfold final. destruct (Nat.eqb _ 16); [|congruence]. cbv zeta. destruct (_ || _); [congruence|]. destruct (forallb _ _); congruence.
Qed.
(** Loading a stream whose length is between 1 and 15 *)
Lemma load_short D dv n : 1 <= n <= 15 -> (32 <= length dv)%nat -> load_stream D dv n None = UB.
Proof.
  intros N L. unfold load_stream. cbn [copy_to]. unfold read_buffer. cbn [aes_open ieof init dev left temp drain]. rewrite Z.min_r by lia. destruct (Nat.ltb_spec (length dv) 16); [lia|]. cbn [bind dev left cx].
  replace (u64 (n - 16)) with (2 ^ 64 + (n - 16)) by (unfold u64; rewrite <- (Z.mod_add (n - 16) 1 (2 ^ 64)) by lia; rewrite Z.mod_small; lia). rewrite Z.min_l by lia.
  assert (LI : length (firstn (Z.to_nat n) (skipn 16 dv)) = Z.to_nat n) by (rewrite firstn_length, skipn_length; lia). unfold update. cbn [pend cprev app]. rewrite LI. rewrite (Nat.div_small (Z.to_nat n - 1) 16) by lia. cbn [dec_blocks length]. destruct (Z.ltb_spec n (Z.of_nat 0)); [lia|].
  destruct (Z.eqb_spec (2 ^ 64 + (n - 16) - Z.of_nat (Z.to_nat n)) 0); [lia|]. cbn [orb]. destruct (skipn (Z.to_nat n) (skipn 16 dv)) as [|x r] eqn:S1.
  - apply (f_equal (@length Z)) in S1. rewrite !skipn_length in S1. cbn in S1. lia.
  - cbn [bind length]. destruct (Z.eqb_spec (n - Z.of_nat 0) 0); [lia|]. reflexivity.
Qed.
