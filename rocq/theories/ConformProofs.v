(** What the writer writes stands for the object in the sense of the standard. *)
From Coq Require Import String Permutation.
From Verif Require Import Base TokModel WriteModel DictProofs TokProofs LexProofs RealProofs ObjSpec ObjProofs LitSpec ConformSpec.
Local Open Scope Z_scope.

Lemma digit_is c : is_digit c = true -> digit c. Proof. unfold is_digit, digit. lia. Qed.
Lemma digits_are ds : Forall (fun c => is_digit c = true) ds -> Forall digit ds.
Proof. intros H. eapply Forall_impl; [|exact H]. exact digit_is. Qed.
Lemma numeral_dec_val ds : numeral ds = dec_val ds.
Proof.
  unfold numeral, dec_val. generalize 0. induction ds as [|d ds IH]; intros a; [reflexivity|]. cbn [fold_left]. rewrite <- IH.
  replace (10 * a + (d - 48)) with (a * 10 + (d - 48)) by lia. reflexivity.
Qed.
Lemma dec_digits z : 0 <= z -> Forall digit (dec z) /\ numeral (dec z) = z /\ dec z <> [].
Proof. intros H. destruct (dec_spec z H) as (A & B & C). rewrite numeral_dec_val. auto using digits_are. Qed.

Lemma regularb c : is_byte c -> is_regular c = true -> regular c.
Proof.
  intros B H. apply regular_spec in H. destruct H as [W D]. split; [exact B|]. unfold white, special, is_ws, is_delim in *. cbn [In].
  split; intuition (subst; discriminate).
Qed.
Lemma hexval_digit v : 0 <= v < 16 -> hexval (hex_digit v) v.
Proof. intros H. unfold hexval, hex_digit. destruct (v <? 10) eqn:E; lia. Qed.
Lemma nibbles c : is_byte c -> 0 <= c / 16 < 16 /\ 0 <= c mod 16 < 16 /\ 16 * (c / 16) + c mod 16 = c.
Proof. unfold is_byte. intros H. pose proof (Z.div_mod c 16 ltac:(lia)). pose proof (Z.mod_pos_bound c 16 ltac:(lia)). lia. Qed.

Lemma name_conforms n : forall t, bytes_ok n -> escape_name n = Ok t -> name_text t n.
Proof.
  induction n as [|c n IH]; intros t B H; cbn [escape_name] in H; [apply ok_inj in H; subst; constructor|].
  pose proof (Forall_inv B) as Bc. pose proof (Forall_inv_tail B) as Bn.
  destruct (c =? 0) eqn:Z0; [discriminate|]. destruct (escape_name n) as [u| | |]; try discriminate. cbn [bind] in H.
  specialize (IH u Bn eq_refl). apply ok_inj in H. subst t. destruct (name_plain c) eqn:P.
  - unfold name_plain in P. cbn [app]. constructor; [apply regularb; [exact Bc|]; destruct (is_regular c); [reflexivity|discriminate]| |lia|exact IH].
    unfold is_printable, schar, is_byte in *. destruct (c <? 128) eqn:E; lia.
  - unfold hex_byte. cbn [app]. destruct (nibbles c Bc) as (N1 & N2 & N3). rewrite <- N3 at 3.
    constructor; [apply hexval_digit; exact N1|apply hexval_digit; exact N2|lia|exact IH].
Qed.
Lemma hex_conforms s : bytes_ok s -> hex_text (flat_map hex_byte s) s.
Proof.
  induction 1 as [|c s B _ IH]; [constructor|]. cbn [flat_map]. unfold hex_byte at 1. cbn [app].
  destruct (nibbles c B) as (N1 & N2 & N3). rewrite <- N3 at 3. constructor; [apply hexval_digit; exact N1|apply hexval_digit; exact N2|exact IH].
Qed.

Definition piece_of (c : Z) : piece := if write_escape c =? 0 then Plain c else Named (write_escape c) c.
Definition piece_good (c : Z) : bool :=
  if write_escape c =? 0 then negb (existsb (Z.eqb c) [40; 41; 92; 10; 13])
  else existsb (fun x => (fst x =? write_escape c) && (snd x =? c)) names.
Lemma piece_of_ok c : is_byte c -> piece_ok (piece_of c).
Proof.
  intros B. pose proof (byte_check piece_good ltac:(vm_compute; reflexivity) c B) as G. unfold piece_good, piece_of in *.
  destruct (write_escape c =? 0).
  - cbn [piece_ok]. intros I. apply negb_true_iff in G. cbn [existsb] in G. cbn [In] in I. lia.
  - cbn [piece_ok]. apply existsb_exists in G. destruct G as ((a, b) & I & E). cbn [fst snd] in E.
    replace (write_escape c) with a by lia. replace c with b by lia. exact I.
Qed.
Lemma pieces_chained l : chained may_follow (map piece_of l).
Proof.
  induction l as [|c l IH]; [exact I|]. cbn [map]. destruct l as [|d l]; [exact I|]. cbn [map] in *. cbn [chained]. split; [|exact IH].
  unfold piece_of. destruct (write_escape c =? 0); exact I.
Qed.
Lemma pieces_balanced l : balanced 0 (map piece_of l).
Proof. induction l as [|c l IH]; [reflexivity|]. cbn [map]. unfold piece_of at 1. destruct (write_escape c =? 0); exact IH. Qed.
Lemma literal_conforms s : bytes_ok s -> exists l, literal l /\ text l = escape_string s /\ value l = s.
Proof.
  intros B. exists (map piece_of s). split; [|split].
  - split; [|split; [apply pieces_chained|apply pieces_balanced]]. apply Forall_map. eapply Forall_impl; [|exact B]. exact piece_of_ok.
  - induction s as [|c s IH]; [reflexivity|]. unfold text in *. cbn [map concat escape_string].
    rewrite IH by exact (Forall_inv_tail B). unfold piece_of. destruct (write_escape c =? 0); reflexivity.
  - clear B. induction s as [|c s IH]; [reflexivity|]. unfold value in *. cbn [map concat].
    rewrite IH. unfold piece_of. destruct (write_escape c =? 0); reflexivity.
Qed.

Lemma signed_digits z : exists s f ds, dec_signed z = s ++ ds /\ sign s f /\ ds <> [] /\ Forall digit ds /\ z = f * numeral ds.
Proof.
  unfold dec_signed. destruct (z <? 0) eqn:E.
  - destruct (dec_digits (- z) ltac:(lia)) as (A & B & C). exists [45], (-1), (dec (- z)). repeat split; auto; [right; auto|lia].
  - destruct (dec_digits z ltac:(lia)) as (A & B & C). exists [], 1, (dec z). repeat split; auto; [left; auto|lia].
Qed.

Lemma sign_of (neg : bool) : sign (if neg then [45] else []) (if neg then -1 else 1).
Proof. destruct neg; [right|left]; auto. Qed.
Lemma numeral_app a b : numeral (a ++ b) = numeral a * 10 ^ Z.of_nat (length b) + numeral b.
Proof. rewrite !numeral_dec_val. apply dec_val_app. Qed.
Lemma real_conforms m k : (k <= 6)%nat -> text_of (real_text m k) (OReal m k).
Proof.
  intros Hk. rewrite real_text_ftext. pose proof (micro_canon m k Hk) as M. pose proof (micro_nonneg m k) as N0.
  set (u := micro m k) in *. set (neg := m <? 0). set (f := if neg then -1 else 1).
  assert (S1 : f * Z.abs m = m) by (subst f neg; destruct (m <? 0) eqn:E; lia).
  pose proof (Z.div_mod u (10 ^ 6) ltac:(lia)) as DM. pose proof (Z.div_pos u (10 ^ 6) N0 ltac:(lia)) as DP.
  destruct (dec_digits (u / 10 ^ 6) DP) as (A & B & C).
  assert (P6 : 10 ^ 6 = 10 ^ Z.of_nat k * 10 ^ Z.of_nat (6 - k)) by (rewrite <- Z.pow_add_r by lia; f_equal; lia).
  assert (PK : 0 < 10 ^ Z.of_nat (6 - k)) by (apply Z.pow_pos_nonneg; lia).
  destruct (ftext_spec neg u N0) as [[E ->] | (j & x & J & E & _ & X & ->)].
  - apply (text_whole _ f); [exact (sign_of neg)|exact C|exact A|]. rewrite B. rewrite <- S1. rewrite <- Z.mul_assoc. f_equal.
    apply (Z.mul_cancel_r _ _ (10 ^ Z.of_nat (6 - k))); [lia|]. rewrite <- M, <- Z.mul_assoc, <- P6. lia.
  - destruct (fixed_digits_spec j x X) as (F1 & F2 & F3). apply (text_real _ f); [exact (sign_of neg)| |exact A|exact (digits_are _ F1)|].
    { destruct (dec (u / 10 ^ 6)); [congruence|discriminate]. }
    rewrite F3, numeral_app, B, F3, (numeral_dec_val (fixed_digits j x)), F2. rewrite <- S1.
    assert (P6' : 10 ^ 6 = 10 ^ Z.of_nat j * 10 ^ Z.of_nat (6 - j)) by (rewrite <- Z.pow_add_r by lia; f_equal; lia).
    assert (PJ : 0 < 10 ^ Z.of_nat (6 - j)) by (apply Z.pow_pos_nonneg; lia).
    rewrite <- !Z.mul_assoc. f_equal. set (d := u / 10 ^ 6) in *. set (a := Z.abs m) in *.
    apply (Z.mul_cancel_r _ _ (10 ^ Z.of_nat (6 - j))); [lia|]. apply (Z.mul_cancel_r _ _ (10 ^ Z.of_nat (6 - k))); [lia|].
    rewrite E in DM. transitivity (u * 10 ^ 6).
    + rewrite M, P6'. ring.
    + rewrite DM at 1. rewrite P6 at 2. rewrite P6'. ring.
Qed.

Ltac wh := repeat (apply Forall_cons; [cbn; tauto|]); apply Forall_nil.
(** texts that begin so that nothing runs into them *)
Definition free_start (r : list Z) : Prop := forall d y, r = d :: y -> ~ regular d.
Lemma apart_free t r : free_start r -> apart t r.
Proof. intros F c d x y _ E [_ R]. exact (F d y E R). Qed.
Lemma free_nil : free_start []. Proof. intros d y E; discriminate. Qed.
Lemma free_white w r : Forall white w -> w <> [] -> free_start (w ++ r).
Proof. intros W N d y E (_ & NW & _). destruct w as [|c w]; [congruence|]. injection E as -> _. exact (NW (Forall_inv W)). Qed.
Lemma free_special c r : special c -> free_start (c :: r).
Proof. intros S0 d y E (_ & _ & NS). injection E as -> _. contradiction. Qed.
Lemma free_cat w r : Forall white w -> free_start r -> free_start (w ++ r).
Proof. intros W F. destruct w as [|c w]; [exact F|]. apply free_white; [exact W|discriminate]. Qed.
Lemma seq_white w r l : Forall white w -> seq_of r l -> seq_of (w ++ r) l.
Proof.
  intros W H. destruct H as [v V|v t o r l V T R A].
  - constructor. apply Forall_app. auto.
  - rewrite app_assoc. constructor; auto. apply Forall_app. auto.
Qed.

Section Conform.
Variable fl : wflags.
Hypothesis Hfl : flags_ok fl.

(** the text written for an object: perhaps a space, then a text of the object *)
Definition good (t : list Z) (o : obj) : Prop :=
  (exists w t', t = w ++ t' /\ Forall white w /\ text_of t' o) /\ (wnoinline fl = false -> forall k, free_start (t ++ k)).

Lemma lead_white : Forall white (lead fl). Proof. unfold lead. destruct (wnoinline fl); wh. Qed.
Lemma good_lead t o : text_of t o -> good (lead fl ++ t) o.
Proof.
  intros T. split; [exists (lead fl), t; auto using lead_white|]. intros E k. rewrite <- app_assoc. apply free_white; [exact lead_white|].
  unfold lead. rewrite E. discriminate.
Qed.
Lemma good_delim c t o : special c -> text_of (c :: t) o -> good (c :: t) o.
Proof. intros S0 T. split; [exists [], (c :: t); auto|]. intros _ k. apply free_special. exact S0. Qed.
Lemma sep_white c : Forall white (arr_sep fl c) /\ Forall white (sp fl) /\ Forall white (nl fl).
Proof. unfold arr_sep, sp, nl. destruct (wclean fl), (c mod 10 =? 0); repeat split; wh. Qed.
(** after a separator (which is there in the clean layout) a good text may follow *)
Lemma free_after w t o : (wclean fl = true -> w <> []) -> Forall white w -> good t o -> forall k, free_start (w ++ t ++ k).
Proof.
  intros N W [_ G] k. destruct Hfl as [C | C]; [apply free_white; auto|]. apply free_cat; [exact W|]. apply G. exact C.
Qed.

Lemma arr_good l : Forall (fun o => forall t, write fl o = Ok t -> good t o) l -> forall c x, arr_text fl c l = Ok x ->
  seq_of x l /\ free_start (arr_sep fl (c - 1) ++ x).
Proof.
  induction 1 as [|o l Ho _ IH]; intros c x H; cbn [arr_text] in H.
  - apply ok_inj in H. subst. split; [constructor; constructor|]. rewrite <- (app_nil_r (arr_sep _ _)). rewrite <- app_assoc. apply free_cat; [apply sep_white|apply free_nil].
  - destruct (write fl o) as [a| | |] eqn:Ea; try discriminate. cbn [bind] in H.
    destruct (arr_text fl (c + 1) l) as [b| | |] eqn:Eb; try discriminate. cbn [bind] in H. apply ok_inj in H. subst x.
    destruct (IH _ _ Eb) as [S1 F1]. replace (c + 1 - 1) with c in F1 by lia. pose proof (Ho a eq_refl) as G. split.
    + destruct G as [(w & t' & -> & W & T) _]. rewrite <- app_assoc. constructor; auto using apart_free. apply seq_white; [apply sep_white|exact S1].
    + apply (free_after _ a o); [|apply sep_white|exact G]. intros C. unfold arr_sep. rewrite C. discriminate.
Qed.

Lemma write_name_good k t : bytes_ok k -> write_name k = Ok t -> exists u, t = 47 :: u /\ text_of t (OName k).
Proof.
  intros B H. unfold write_name in H. destruct (escape_name k) as [u| | |] eqn:E; try discriminate. apply ok_inj in H. subst t.
  exists u. split; [reflexivity|]. constructor. apply name_conforms; assumption.
Qed.
Lemma pairs_good d : Forall (fun p => bytes_ok (fst p) /\ forall t, write fl (snd p) = Ok t -> good t (snd p)) d ->
  forall x, pairs_text fl d = Ok x -> seq_of x (flat_map (fun p => [OName (fst p); snd p]) d) /\ free_start (nl fl ++ x).
Proof.
  destruct (sep_white 0) as (_ & Wsp & Wnl).
  induction 1 as [|(k, v) d [Bk Hv] _ IH]; intros x H; cbn [pairs_text] in H.
  - apply ok_inj in H. subst. split; [constructor; constructor|]. apply free_cat; [exact Wnl|apply free_nil].
  - cbn [fst snd] in *. destruct (write_name k) as [n| | |] eqn:En; try discriminate. cbn [bind] in H.
    destruct (write fl v) as [a| | |] eqn:Ea; try discriminate. cbn [bind] in H.
    destruct (pairs_text fl d) as [b| | |] eqn:Eb; try discriminate. cbn [bind] in H. apply ok_inj in H. subst x.
    destruct (IH b eq_refl) as [S1 F1]. pose proof (Hv a eq_refl) as G. destruct (write_name_good k n Bk En) as (u & -> & Tn).
    cbn [flat_map fst snd]. change ([OName k; v] ++ flat_map (fun p => [OName (fst p); snd p]) d)
      with (OName k :: v :: flat_map (fun p => [OName (fst p); snd p]) d). split.
    + apply (seq_cons [] (47 :: u) (OName k) (sp fl ++ a ++ nl fl ++ b)); [constructor|exact Tn| |].
      * destruct G as [(w & t' & -> & W & T) _]. apply seq_white; [exact Wsp|]. rewrite <- app_assoc.
        constructor; auto using apart_free. apply seq_white; [exact Wnl|exact S1].
      * apply apart_free. apply (free_after _ a v); [|exact Wsp|exact G]. intros C. unfold sp. rewrite C. discriminate.
    + apply free_cat; [exact Wnl|]. cbn [app]. apply free_special. cbn. tauto.
Qed.

Lemma type_first_perm d : Permutation (type_first d) d.
Proof.
  unfold type_first. induction d as [|p d IH]; [constructor|]. cbn [filter]. destruct (is_type p); cbn [negb app].
  - constructor. exact IH.
  - apply Permutation_sym. eapply perm_trans; [apply perm_skip; apply Permutation_sym; exact IH|]. apply Permutation_middle.
Qed.

Lemma write_good o : expressible o -> forall t, write fl o = Ok t -> good t o.
Proof.
  induction o as [|b|n|m k0|n|h x|n g|l IH|d IH] using obj_ind2; intros E t H.
  - cbn [write] in H. apply ok_inj in H. subst. apply good_lead. constructor.
  - cbn [write] in H. apply ok_inj in H. subst. apply good_lead. destruct b; constructor.
  - cbn [write] in H. apply ok_inj in H. subst. apply good_lead. destruct (signed_digits n) as (s & f & ds & -> & A & B & C & D).
    rewrite D. constructor; assumption.
  - cbn [write] in H. apply ok_inj in H. subst. apply good_lead. apply real_conforms. exact E.
  - cbn [write] in H. destruct (write_name_good n t E H) as (u & -> & T). apply good_delim; [cbn; tauto|exact T].
  - cbn [write] in H. apply ok_inj in H. subst. unfold write_string. destruct h.
    + cbn [app]. apply good_delim; [cbn; tauto|]. constructor. apply hex_conforms. exact E.
    + cbn [app]. destruct (literal_conforms x E) as (l & L & TL & VL). rewrite <- TL. apply good_delim; [cbn; tauto|].
      rewrite <- VL. constructor. exact L.
  - cbn [write] in H. apply ok_inj in H. subst. destruct E as [En Eg]. unfold write_ref. apply good_lead.
    destruct (dec_digits n En) as (A1 & A2 & A3), (dec_digits g Eg) as (B1 & B2 & B3). rewrite <- A2 at 2. rewrite <- B2 at 2.
    change [32; 82] with ([32] ++ [82]). constructor; auto; try discriminate; wh.
  - rewrite write_arr in H. destruct (arr_text fl 1 l) as [x| | |] eqn:Ex; try discriminate. cbn [bind] in H. apply ok_inj in H. subst t.
    assert (F : Forall (fun o => forall t, write fl o = Ok t -> good t o) l).
    { clear Ex. cbn [expressible] in E. induction IH as [|o l Ho _ IH']; [constructor|]. destruct E. constructor; auto. }
    destruct (arr_good l F _ _ Ex) as [S1 _]. destruct (wclean fl); cbn [app].
    + apply good_delim; [cbn; tauto|]. change (32 :: x ++ [93]) with (([32] ++ x) ++ [93]). constructor. apply seq_white; [wh|exact S1].
    + apply good_delim; [cbn; tauto|]. constructor. exact S1.
  - destruct E as [So E]. destruct (write_dict fl d t So H) as (x & Ex & ->).
    assert (F : Forall (fun p => bytes_ok (fst p) /\ forall t, write fl (snd p) = Ok t -> good t (snd p)) d).
    { clear Ex H So. induction IH as [|(k, v) d Ho _ IH']; [constructor|]. destruct E as [[Bk Ev] E]. constructor; [cbn [fst snd] in *; auto|auto]. }
    assert (F' : Forall (fun p => bytes_ok (fst p) /\ forall t, write fl (snd p) = Ok t -> good t (snd p)) (type_first d)).
    { apply Forall_forall. intros p I. rewrite Forall_forall in F. apply F. apply type_first_in. exact I. }
    destruct (pairs_good _ F' x Ex) as [S1 _]. pose proof (type_first_nodup d (sorted_nodup d So)) as ND.
    destruct (wclean fl); cbn [app]; (apply good_delim; [cbn; tauto|]).
    + change (60 :: 10 :: x ++ [62; 62]) with (60 :: ([10] ++ x) ++ [62; 62]). apply (text_dict _ (type_first d)); auto using type_first_perm.
      apply seq_white; [wh|exact S1].
    + apply (text_dict _ (type_first d)); auto using type_first_perm.
Qed.
End Conform.

Lemma written_conforms fl o t : flags_ok fl -> expressible o -> write fl o = Ok t ->
  exists w t', t = w ++ t' /\ Forall white w /\ text_of t' o.
Proof. intros F E H. exact (proj1 (write_good fl F o E t H)). Qed.
