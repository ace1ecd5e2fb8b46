(** What the writer writes is a spelling of the object: the texts of C01 lie within the grammar of C110. *)
From Coq Require Import String Permutation.
From Verif Require Import Base TokModel WriteModel DictProofs TokProofs LexProofs RealProofs ObjSpec ObjProofs LitSpec ConformSpec ConformProofs GrammarSpec GrammarProofs.
Local Open Scope Z_scope.

(** a text nothing runs into *)
Definition begins (r : list Z) : Prop := match r with [] => True | d :: _ => ~ plain d /\ d <> 37 end.
Lemma begins_separate t r : begins r -> separate t r.
Proof. destruct r as [|d r]; [auto|]. intros [A B]. cbn. auto. Qed.
Lemma white_begins c r : white c -> begins (c :: r).
Proof. intros W. split; [intros [N _]; auto|]. intros ->. cbn in W. lia. Qed.
Lemma special_begins c r : special c -> c <> 37 -> begins (c :: r).
Proof. intros W N. split; [intros [_ M]; auto|exact N]. Qed.
Lemma begins_white w r : Forall white w -> w <> [] -> begins (w ++ r).
Proof. intros W N. destruct w as [|c w]; [congruence|]. apply white_begins. exact (Forall_inv W). Qed.
Lemma begins_cat w r : Forall white w -> begins r -> begins (w ++ r).
Proof. intros W F. destruct w as [|c w]; [exact F|]. apply begins_white; [exact W|discriminate]. Qed.
Lemma white_blank w : Forall white w -> blank w.
Proof. induction 1; constructor; auto. Qed.
Lemma blank_app a b : blank a -> blank b -> blank (a ++ b).
Proof.
  induction 1 as [|c w C _ IH|x e w N1 N2 E _ IH]; intros B; cbn [app]; auto.
  - apply blank_white; auto.
  - rewrite <- app_assoc. cbn [app]. apply blank_comment; auto.
Qed.
Lemma row_blank P w r l : blank w -> row P r l -> row P (w ++ r) l.
Proof.
  intros W H. destruct H as [v V|v t o r l V T S0 R].
  - constructor. apply blank_app; auto.
  - rewrite app_assoc. constructor; auto using blank_app.
Qed.

Section Write.
Variable P : rparams.
Hypothesis Hbuf : (20 <= rbuf P)%nat.
Variable fl : wflags.
Hypothesis Hfl : flags_ok fl.

Definition wgood (t : list Z) (o : obj) : Prop :=
  (exists w t', t = w ++ t' /\ Forall white w /\ spelled P t' o) /\ (wnoinline fl = false -> forall k, begins (t ++ k)).
Lemma wgood_lead t o : spelled P t o -> wgood (lead fl ++ t) o.
Proof.
  intros T. split; [exists (lead fl), t; auto using lead_white|]. intros E k. rewrite <- app_assoc. apply begins_white; [apply lead_white|].
  unfold lead. rewrite E. discriminate.
Qed.
Lemma wgood_delim c t o : special c -> c <> 37 -> spelled P (c :: t) o -> wgood (c :: t) o.
Proof. intros S0 N T. split; [exists [], (c :: t); auto|]. intros _ k. apply special_begins; assumption. Qed.
Lemma begins_after w t o : (wclean fl = true -> w <> []) -> Forall white w -> wgood t o -> forall k, begins (w ++ t ++ k).
Proof.
  intros N W [_ G] k. destruct Hfl as [C | C]; [apply begins_white; auto|]. apply begins_cat; [exact W|]. apply G. exact C.
Qed.

Lemma arr_wgood l : Forall (fun o => forall t, write fl o = Ok t -> wgood t o) l -> forall c x, arr_text fl c l = Ok x ->
  row P x l /\ begins (arr_sep fl (c - 1) ++ x).
Proof.
  induction 1 as [|o l Ho _ IH]; intros c x H; cbn [arr_text] in H.
  - apply ok_inj in H. subst. split; [constructor; constructor|]. apply begins_cat; [apply sep_white|exact I].
  - destruct (write fl o) as [a| | |] eqn:Ea; try discriminate. cbn [bind] in H.
    destruct (arr_text fl (c + 1) l) as [b| | |] eqn:Eb; try discriminate. cbn [bind] in H. apply ok_inj in H. subst x.
    destruct (IH _ _ Eb) as [S1 F1]. replace (c + 1 - 1) with c in F1 by lia. pose proof (Ho a eq_refl) as G. split.
    + destruct G as [(w & t' & -> & W & T) _]. rewrite <- app_assoc. constructor; auto using begins_separate, white_blank.
      apply row_blank; [apply white_blank, sep_white|exact S1].
    + apply (begins_after _ a o); [|apply sep_white|exact G]. intros C. unfold arr_sep. rewrite C. discriminate.
Qed.

Lemma escape_spelled n : forall t, bytes_ok n -> escape_name n = Ok t -> name_spelled t n.
Proof.
  induction n as [|c n IH]; intros t B H; cbn [escape_name] in H; [apply ok_inj in H; subst; constructor|].
  pose proof (Forall_inv B) as Bc. pose proof (Forall_inv_tail B) as Bn.
  destruct (c =? 0) eqn:Z0; [discriminate|]. destruct (escape_name n) as [u| | |]; try discriminate. cbn [bind] in H.
  specialize (IH u Bn eq_refl). apply ok_inj in H. subst t. destruct (name_plain c) eqn:E.
  - unfold name_plain in E. cbn [app]. constructor; [apply plain_iff; destruct (is_regular c); [reflexivity|discriminate]|lia|exact IH].
  - unfold hex_byte. cbn [app]. destruct (nibbles c Bc) as (N1 & N2 & N3). rewrite <- N3 at 3.
    constructor; [apply hexval_digit; exact N1|apply hexval_digit; exact N2|exact IH].
Qed.
Lemma write_name_spelled k t : name_ok (rbuf P) k -> write_name k = Ok t -> exists u, t = 47 :: u /\ spelled P t (OName k).
Proof.
  intros (B & _ & L) H. unfold write_name in H. destruct (escape_name k) as [u| | |] eqn:E; try discriminate. apply ok_inj in H. subst t.
  exists u. split; [reflexivity|]. constructor; [apply escape_spelled; assumption|apply L; reflexivity].
Qed.
Lemma pairs_wgood d : Forall (fun p => name_ok (rbuf P) (fst p) /\ forall t, write fl (snd p) = Ok t -> wgood t (snd p)) d ->
  forall x, pairs_text fl d = Ok x -> row P x (flat_map (fun p => [OName (fst p); snd p]) d) /\ begins (nl fl ++ x).
Proof.
  destruct (sep_white fl 0) as (_ & Wsp & Wnl).
  induction 1 as [|(k, v) d [Bk Hv] _ IH]; intros x H; cbn [pairs_text] in H.
  - apply ok_inj in H. subst. split; [constructor; constructor|]. apply begins_cat; [exact Wnl|exact I].
  - cbn [fst snd] in *. destruct (write_name k) as [n| | |] eqn:En; try discriminate. cbn [bind] in H.
    destruct (write fl v) as [a| | |] eqn:Ea; try discriminate. cbn [bind] in H.
    destruct (pairs_text fl d) as [b| | |] eqn:Eb; try discriminate. cbn [bind] in H. apply ok_inj in H. subst x.
    destruct (IH b eq_refl) as [S1 F1]. pose proof (Hv a eq_refl) as G. destruct (write_name_spelled k n Bk En) as (u & -> & Tn).
    cbn [flat_map fst snd]. change ([OName k; v] ++ flat_map (fun p => [OName (fst p); snd p]) d)
      with (OName k :: v :: flat_map (fun p => [OName (fst p); snd p]) d). split.
    + apply (row_cons P [] (47 :: u) (OName k) (sp fl ++ a ++ nl fl ++ b)); [constructor|exact Tn| |].
      * apply begins_separate. apply (begins_after _ a v); [|exact Wsp|exact G]. intros C. unfold sp. rewrite C. discriminate.
      * destruct G as [(w & t' & -> & W & T) _]. apply row_blank; [apply white_blank; exact Wsp|]. rewrite <- app_assoc.
        constructor; auto using begins_separate, white_blank. apply row_blank; [apply white_blank; exact Wnl|exact S1].
    + apply begins_cat; [exact Wnl|]. cbn [app]. apply special_begins; [cbn; tauto|discriminate].
Qed.

Lemma hex_bytes_spelled s : bytes_ok s -> hex_spelled (flat_map hex_byte s) (flat_map hex_byte s).
Proof.
  induction 1 as [|c s B _ IH]; [constructor|]. cbn [flat_map]. unfold hex_byte at 1 3. cbn [app]. destruct (nibbles c B) as (N1 & N2 & _).
  eapply hexes_digit; [apply hexval_digit; exact N1|]. eapply hexes_digit; [apply hexval_digit; exact N2|exact IH].
Qed.
Lemma pieces_supported s : Forall supported (map piece_of s) /\ chained supported_follow (map piece_of s).
Proof.
  split.
  - apply Forall_map, Forall_forall. intros c _. unfold piece_of. destruct (write_escape c =? 0); exact I.
  - induction s as [|c s IH]; [exact I|]. cbn [map]. destruct s as [|d s]; [exact I|]. cbn [map] in *. cbn [chained]. split; [|exact IH].
    unfold piece_of. destruct (write_escape c =? 0); exact I.
Qed.
Lemma literal_spelled s : bytes_ok s -> spelled P (40 :: escape_string s ++ [41]) (OStr false s).
Proof.
  intros B. assert (L : literal (map piece_of s)).
  { split; [|split; [apply pieces_chained|apply pieces_balanced]]. apply Forall_map. eapply Forall_impl; [|exact B]. exact piece_of_ok. }
  assert (T : text (map piece_of s) = escape_string s).
  { clear B L. induction s as [|c s IH]; [reflexivity|]. unfold text in *. cbn [map concat escape_string]. rewrite IH.
    unfold piece_of. destruct (write_escape c =? 0); reflexivity. }
  assert (V : value (map piece_of s) = s).
  { clear B L T. induction s as [|c s IH]; [reflexivity|]. unfold value in *. cbn [map concat]. rewrite IH.
    unfold piece_of. destruct (write_escape c =? 0); reflexivity. }
  rewrite <- T, <- V at 1. rewrite V. rewrite <- V at 2. destruct (pieces_supported s). apply sp_lit; assumption.
Qed.
Lemma minus_digits z : exists s f ds, dec_signed z = s ++ ds /\ minus s f /\ ds <> [] /\ Forall digit ds /\ z = f * numeral ds.
Proof.
  unfold dec_signed. destruct (z <? 0) eqn:E.
  - destruct (dec_digits (- z) ltac:(lia)) as (A & B & C). exists [45], (-1), (dec (- z)). repeat split; auto; [right; auto|lia].
  - destruct (dec_digits z ltac:(lia)) as (A & B & C). exists [], 1, (dec z). repeat split; auto; [left; auto|lia].
Qed.
Lemma real_spelled m k : canon_real m k -> (length (real_text m k) <= rbuf P)%nat -> spelled P (real_text m k) (OReal m k).
Proof.
  intros C L. destruct (canon_real_read m k C) as [K F]. rewrite real_text_ftext in *. pose proof (micro_nonneg m k) as N0.
  set (u := micro m k) in *. set (neg := m <? 0) in *.
  assert (MN : minus (if neg then [45] else []) (if neg then -1 else 1)) by (destruct neg; [right|left]; auto).
  destruct (dec_digits (u / 10 ^ 6) (Z.div_pos u (10 ^ 6) N0 ltac:(lia))) as (A & B & NE).
  destruct (ftext_spec neg u N0) as [[E T] | (j & x & J & E & _ & X & T)]; rewrite T in *.
  - exfalso. rewrite (kind_minus _ _ _ _ MN) in K. rewrite <- (app_nil_r (dec _)) in K. rewrite (kind_app P Hbuf) in K by exact A. discriminate.
  - destruct (fixed_digits_spec j x X) as (F1 & F2 & F3).
    assert (NN : dec (u / 10 ^ 6) ++ fixed_digits j x <> []) by (destruct (dec (u / 10 ^ 6)); [congruence|discriminate]).
    assert (G := from_real P Hbuf _ _ _ _ MN NN A (digits_are _ F1)). rewrite F in G. injection G as Gm Gk.
    replace (OReal m k) with (OReal ((if neg then -1 else 1) * numeral (dec (u / 10 ^ 6) ++ fixed_digits j x)) (length (fixed_digits j x))) by (f_equal; [symmetry; exact Gm|symmetry; exact Gk]).
    apply sp_real; auto using digits_are.
Qed.

Theorem write_wgood o : wf_obj P o -> forall t, write fl o = Ok t -> wgood t o.
Proof.
  induction o as [|b|n|m k0|n|h x|n g|l IH|d IH] using obj_ind2; intros E t H.
  - cbn [write] in H. apply ok_inj in H. subst. apply wgood_lead. constructor.
  - cbn [write] in H. apply ok_inj in H. subst. apply wgood_lead. destruct b; constructor.
  - cbn [write] in H. apply ok_inj in H. subst. apply wgood_lead. pose proof (dec_signed_len n E) as L. cbn [wf_obj] in E.
    assert (R : - 2 ^ 63 <= n < 2 ^ 63) by (unfold int64_ok in E; lia).
    destruct (minus_digits n) as (s & f & ds & T & A & B & C & D). rewrite T in *. rewrite D in *.
    apply sp_int; [|exact B|exact C|exact R|lia]. exact A.
  - cbn [write] in H. apply ok_inj in H. subst. apply wgood_lead. destruct E. apply real_spelled; assumption.
  - cbn [write] in H. destruct (write_name_spelled n t E H) as (u & -> & T). apply wgood_delim; [cbn; tauto|discriminate|exact T].
  - cbn [write] in H. apply ok_inj in H. subst. unfold write_string. destruct h; cbn [app]; (apply wgood_delim; [cbn; tauto|discriminate|]).
    + apply (sp_hex P _ _ _ (hex_bytes_spelled x E)). apply hex_conforms. exact E.
    + apply literal_spelled. exact E.
  - cbn [write] in H. apply ok_inj in H. subst. destruct E as (En & Eg & Er). unfold write_ref. apply wgood_lead.
    destruct (dec_digits n (proj1 En)) as (A1 & A2 & A3), (dec_digits g (proj1 Eg)) as (B1 & B2 & B3).
    assert (L1 : (length (dec n) <= 10)%nat) by (apply dec_len; [change (10 ^ Z.of_nat 10) with 10000000000; lia|lia]).
    assert (L2 : (length (dec g) <= 10)%nat) by (apply dec_len; [change (10 ^ Z.of_nat 10) with 10000000000; lia|lia]).
    rewrite <- A2 at 2. rewrite <- B2 at 2.
    change [32; 82] with ([32] ++ [82]). apply sp_ref; auto; try discriminate; try lia; (apply blank_white; [cbn; tauto|constructor]).
  - rewrite write_arr in H. destruct (arr_text fl 1 l) as [x| | |] eqn:Ex; try discriminate. cbn [bind] in H. apply ok_inj in H. subst t.
    assert (F : Forall (fun o => forall t, write fl o = Ok t -> wgood t o) l).
    { clear Ex. cbn [wf_obj] in E. induction IH as [|o l Ho _ IH']; [constructor|]. destruct E. constructor; auto. }
    destruct (arr_wgood l F _ _ Ex) as [S1 _]. destruct (wclean fl); cbn [app]; (apply wgood_delim; [cbn; tauto|discriminate|]).
    + change (32 :: x ++ [93]) with (([32] ++ x) ++ [93]). constructor. apply row_blank; [apply white_blank; wh|exact S1].
    + constructor. exact S1.
  - destruct E as [So E]. destruct (write_dict fl d t So H) as (x & Ex & ->).
    assert (F : Forall (fun p => name_ok (rbuf P) (fst p) /\ forall t, write fl (snd p) = Ok t -> wgood t (snd p)) d).
    { clear Ex H So. induction IH as [|(k, v) d Ho _ IH']; [constructor|]. destruct E as [[Bk Ev] E]. constructor; [cbn [fst snd] in *; auto|auto]. }
    assert (F' : Forall (fun p => name_ok (rbuf P) (fst p) /\ forall t, write fl (snd p) = Ok t -> wgood t (snd p)) (type_first d)).
    { apply Forall_forall. intros p I. rewrite Forall_forall in F. apply F. apply type_first_in. exact I. }
    destruct (pairs_wgood _ F' x Ex) as [S1 _]. pose proof (type_first_nodup d (sorted_nodup d So)) as ND.
    destruct (wclean fl); cbn [app]; (apply wgood_delim; [cbn; tauto|discriminate|]).
    + change (60 :: 10 :: x ++ [62; 62]) with (60 :: ([10] ++ x) ++ [62; 62]). apply (sp_dict P _ (type_first d)); auto using type_first_perm.
      apply row_blank; [apply white_blank; wh|exact S1].
    + apply (sp_dict P _ (type_first d)); auto using type_first_perm.
Qed.
End Write.
