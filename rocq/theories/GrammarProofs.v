(** Proofs for C110: every spelling of an object is read as that object. *)
From Coq Require Import String Permutation.
From Verif Require Import Base TokModel WriteModel BitLemmas DictProofs ReadEq TokProofs LexProofs ObjSpec ObjProofs FuelProofs ParseProofs ObjPropLemmas LitSpec LitProofs ConformSpec ConformProofs GrammarSpec.
Local Open Scope Z_scope.

Lemma white_iff c : is_ws c = true <-> white c.
Proof. unfold is_ws, white. cbn [In]. rewrite !orb_true_iff, !Z.eqb_eq. intuition lia. Qed.
Lemma special_iff c : is_delim c = true <-> special c.
Proof. unfold is_delim, special. cbn [In]. rewrite !orb_true_iff, !Z.eqb_eq. intuition lia. Qed.
Lemma plain_iff c : is_regular c = true <-> plain c.
Proof.
  unfold is_regular, plain. rewrite andb_true_iff, !negb_true_iff, <- white_iff, <- special_iff.
  destruct (is_ws c), (is_delim c); intuition congruence.
Qed.
Lemma not_plain c : ~ plain c -> is_ws c || is_delim c = true.
Proof. intro H. rewrite <- plain_iff in H. unfold is_regular in H. destruct (is_ws c), (is_delim c); auto; exfalso; apply H; reflexivity. Qed.

(** * Leading blanks *)
Fixpoint strip_from (comment : bool) (l : list Z) : list Z :=
  match l with
  | [] => []
  | c :: r =>
    if comment then strip_from (negb ((c =? 10) || (c =? 13))) r
    else if is_ws c then strip_from false r
    else if c =? 37 then strip_from true r
    else l
  end.
Definition strip := strip_from false.

Lemma strip_idem b l : strip (strip_from b l) = strip_from b l.
Proof.
  unfold strip. revert b. induction l as [|c l IH]; intro b; [reflexivity|]. cbn [strip_from]. destruct b; [apply IH|].
  destruct (is_ws c) eqn:W; [apply IH|]. destruct (c =? 37) eqn:E; [apply IH|]. cbn [strip_from]. rewrite W, E. reflexivity.
Qed.
Lemma tok_strip_from buf b l : tok_from buf b l = tok_from buf false (strip_from b l).
Proof.
  revert b. induction l as [|c l IH]; intro b; [reflexivity|]. cbn [strip_from]. destruct b; [cbn [tok_from]; apply IH|].
  destruct (is_ws c) eqn:W; [cbn [tok_from]; rewrite W; apply IH|].
  destruct (c =? 37) eqn:E; [cbn [tok_from]; rewrite W, E; apply IH|]. reflexivity.
Qed.
Lemma tok_strip buf l : tok buf (strip l) = tok buf l.
Proof. symmetry. apply tok_strip_from. Qed.
Lemma tok_same buf a b : strip a = strip b -> tok buf a = tok buf b.
Proof. intro E. rewrite <- (tok_strip _ a), <- (tok_strip _ b), E. reflexivity. Qed.

Lemma strip_comment b : forall e r, ~ In 10 b -> ~ In 13 b -> e = 10 \/ e = 13 -> strip_from true (b ++ e :: r) = strip r.
Proof.
  induction b as [|c b IH]; intros e r N1 N2 He; cbn [app strip_from].
  - destruct He; subst e; reflexivity.
  - cbn [In] in N1, N2. replace ((c =? 10) || (c =? 13)) with false by lia. apply IH; tauto.
Qed.
Lemma strip_blank w k : blank w -> strip (w ++ k) = strip k.
Proof.
  induction 1 as [|c w W _ IH|b e w N1 N2 He _ IH]; [reflexivity| |].
  - cbn [app]. unfold strip. cbn [strip_from]. apply white_iff in W. rewrite W. exact IH.
  - cbn [app]. unfold strip. cbn [strip_from]. change (is_ws 37) with false. change (37 =? 37) with true. cbv iota.
    rewrite <- app_assoc. cbn [app]. rewrite strip_comment by auto. exact IH.
Qed.
Lemma strip_skip r : strip (skip_comment r) = strip_from true r.
Proof.
  induction r as [|c r IH]; [reflexivity|]. cbn [skip_comment strip_from].
  destruct ((c =? 10) || (c =? 13)) eqn:E; cbn [negb]; [|exact IH].
  unfold strip. cbn [strip_from]. replace (is_ws c) with true; [reflexivity|]. unfold is_ws. lia.
Qed.

(** * Literal tokens *)
Definition halts (k : list Z) : Prop := match k with [] => True | c :: _ => is_ws c || is_delim c = true end.
Lemma lit_rest_halts t : forall room k, Forall (fun c => is_regular c = true) t -> halts k -> (length t <= room)%nat ->
  exists k', lit_rest room (t ++ k) = (t, k') /\ strip k' = strip k.
Proof.
  induction t as [|c t IH]; intros room k R H L.
  - cbn [app]. destruct room as [|room]; [exists k; auto|]. cbn [lit_rest]. destruct k as [|c k]; [exists []; auto|].
    destruct (c =? 37) eqn:E.
    + exists (skip_comment k). split; [reflexivity|]. rewrite strip_skip. unfold strip. cbn [strip_from].
      apply Z.eqb_eq in E. subst c. reflexivity.
    + cbn in H. rewrite H. eauto.
  - cbn [app length] in *. destruct room as [|room]; [lia|]. cbn [lit_rest].
    inversion R as [|? ? Rc Rt]; subst. destruct (regular_not c Rc) as (E & _). rewrite E.
    unfold is_regular in Rc. apply andb_true_iff in Rc. destruct Rc as [W D]. apply negb_true_iff in W, D. rewrite W, D. cbn [orb].
    destruct (IH room k Rt H ltac:(lia)) as (k' & -> & S'). eauto.
Qed.
Lemma tok_lit_halts buf t k : t <> [] -> Forall (fun c => is_regular c = true) t -> halts k -> (length t <= buf)%nat ->
  exists k', tok buf (t ++ k) = Some ((TLit, t), k') /\ strip k' = strip k.
Proof.
  intros N R H L. destruct t as [|c t]; [congruence|]. inversion R as [|? ? Rc Rt]; subst.
  cbn [length] in L. destruct (lit_rest_halts t (Nat.pred buf) k Rt H ltac:(lia)) as (k' & E & S').
  exists k'. split; [|exact S']. destruct (regular_not c Rc) as (E1 & E2 & E3 & E4). destruct (regular_spec c Rc) as [W _].
  unfold tok. cbn [app tok_from]. rewrite W, E1, E2, E3. cbn [orb]. rewrite E4, E. reflexivity.
Qed.

Section G.
Variable P : rparams.
Hypothesis Hbuf : (20 <= rbuf P)%nat.
Notation buf := (rbuf P).
Lemma two : (2 <= buf)%nat. Proof. lia. Qed.

(** the state stands for the text, up to blanks in front *)
Definition stands (s : tst) (k : list Z) : Prop := exists k0, reads buf s k0 /\ strip k0 = strip k.
Lemma stands_reads s k : reads buf s k -> stands s k.
Proof. intro H. exists k. auto. Qed.
Lemma stands_same s a b : stands s a -> strip a = strip b -> stands s b.
Proof. intros (k0 & R & E) F. exists k0. split; congruence. Qed.
Lemma stands_blank s w k : blank w -> stands s (w ++ k) -> stands s k.
Proof. intros B H. eapply stands_same; [exact H|]. apply strip_blank. exact B. Qed.

Lemma next_stands s inp ty t r : stands s inp -> tok buf inp = Some ((ty, t), r) ->
  exists s', next_token buf s = Some ((ty, t), s') /\ reads buf s' r /\ (length (tq s') <= 1)%nat /\ (ty <> TLit -> s' = mk_tst [] r).
Proof.
  intros (k0 & R & E) T. rewrite <- (tok_same buf _ _ E) in T.
  destruct (next_reads _ _ _ _ _ _ two R T) as (s' & N & R' & [_ L] & Q). exists s'. auto.
Qed.
Lemma num_safe_same a b : strip a = strip b -> num_safe buf a -> num_safe buf b.
Proof. intros E H. unfold num_safe in *. rewrite <- (tok_same buf _ _ E). exact H. Qed.

Definition back (t : list Z) (o : obj) : Prop :=
  forall k s D, stands s (t ++ k) -> can_follow P t o k -> (D + inner o <= rmax P)%nat ->
    exists tk s1 dt s2 s' F,
      next_token buf s = Some (tk, s1) /\ fst tk <> TRSq /\ fst tk <> TDRAng /\
      determine buf (rrefs P) tk s1 = Ok (dt, s2) /\
      (forall fuel, (F <= fuel)%nat -> read_data P fuel D dt s2 = Ok (Some o, s')) /\
      stands s' k /\
      match o with OStr true x => dt = DHex /\ read_hex (tin s2) = (x, tin s') /\ tq s' = tq s2 | _ => dt <> DHex end.

Lemma halts_of t k : open_ended t -> separate t k -> halts k.
Proof. intros N S. destruct k as [|d k]; [exact Logic.I|]. apply not_plain. apply S. exact N. Qed.
Lemma open_last t : t <> [] -> Forall (fun c => is_regular c = true) t -> open_ended t.
Proof.
  intros N F. right. destruct (exists_last N) as (x & c & ->). exists x, c. split; [reflexivity|].
  apply Forall_app in F. destruct F as [_ F]. inversion F; subst. apply plain_iff. assumption.
Qed.

(** values made of one token *)
Lemma back_token o t : t <> [] -> Forall (fun c => is_regular c = true) t -> (length t <= buf)%nat -> (forall x, o <> OStr true x) ->
  (forall k s, reads buf s k -> (length (tq s) <= 1)%nat -> (match o with ONum _ => rrefs P = true -> num_safe buf k | _ => True end) ->
     exists s2, determine buf (rrefs P) (TLit, t) s = Ok (DVal o, s2) /\ reads buf s2 k) ->
  back t o.
Proof.
  intros N R L NH H k s D St (Sep & _ & Safe) _.
  destruct (tok_lit_halts buf t k N R (halts_of t k (open_last t N R) Sep) L) as (k' & T & E).
  destruct (next_stands _ _ _ _ _ St T) as (s1 & Nx & R1 & Q & _).
  destruct (H k' s1 R1 Q) as (s2 & Dt & R2).
  { destruct o; auto. intro RR. apply (num_safe_same k); auto. }
  exists (TLit, t), s1, (DVal o), s2, s2, 1%nat. split; [exact Nx|]. split; [discriminate|]. split; [discriminate|]. split; [exact Dt|].
  split; [intros fuel Hf; destruct fuel; [lia|]; reflexivity|]. split; [exists k'; auto|].
  destruct o; try discriminate. destruct hex; [exfalso; eapply NH; reflexivity|discriminate].
Qed.

Lemma keyword_regular x : forallb is_regular x = true -> Forall (fun c => is_regular c = true) x.
Proof. intro H. apply Forall_forall. apply forallb_forall. exact H. Qed.

Lemma digit_reg ds : Forall digit ds -> Forall (fun c => is_digit c = true) ds.
Proof. apply Forall_impl. unfold digit, is_digit. intros. lia. Qed.
Lemma digits_regular ds : Forall digit ds -> Forall (fun c => is_regular c = true) ds.
Proof. intro H. eapply Forall_impl; [|apply digit_reg; exact H]. intro c. apply digit_regular. Qed.
Lemma minus_regular s f : minus s f -> Forall (fun c => is_regular c = true) s.
Proof. intros [[-> _]|[-> _]]; repeat constructor. Qed.

Lemma not_keyword t b : lit_kind false t = Some b -> beq t (bs "null") = false /\ beq t (bs "true") = false /\ beq t (bs "false") = false.
Proof.
  intro H. repeat split; apply not_true_is_false; intro E; apply beq_eq in E; subst t; discriminate H.
Qed.
Lemma kind_app a : forall b acc, Forall digit a -> lit_kind acc (a ++ b) = lit_kind acc b.
Proof.
  induction a as [|c a IH]; intros b acc H; [reflexivity|]. inversion H as [|? ? Hc Ha]; subst. cbn [app lit_kind].
  unfold digit in Hc. replace (c =? 46) with false by lia. replace (is_digit c || (c =? 45) || (c =? 43)) with true by (unfold is_digit; lia).
  apply IH. exact Ha.
Qed.
Lemma kind_minus s f b acc : minus s f -> lit_kind acc (s ++ b) = lit_kind acc b.
Proof. intros [[-> _]|[-> _]]; reflexivity. Qed.

Lemma digit_head ds r : ds <> [] -> Forall digit ds -> exists c t, ds ++ r = c :: t /\ (c =? 45) = false.
Proof. intros N H. destruct ds as [|c ds]; [congruence|]. inversion H; subst. exists c, (ds ++ r). split; [reflexivity|]. unfold digit in *. lia. Qed.

Lemma from_int s f ds : minus s f -> ds <> [] -> Forall digit ds -> - 2 ^ 63 <= f * numeral ds < 2 ^ 63 ->
  from_chars_int (s ++ ds) = Some (f * numeral ds).
Proof.
  intros M N Fd V. rewrite numeral_dec_val in *. unfold from_chars_int.
  assert (SD : span_digits ds = (ds, [])) by (apply span_digits_all; apply digit_reg; exact Fd).
  destruct M as [[-> ->]|[-> ->]]; cbn [app].
  - destruct (digit_head ds [] N Fd) as (c & t & E & Ec). rewrite app_nil_r in E. rewrite E in *. rewrite Ec, SD.
    replace (int64_ok (dec_val (c :: t))) with true by (unfold int64_ok; lia). f_equal. lia.
  - change (45 =? 45) with true. cbv iota. rewrite SD. destruct ds as [|c t]; [congruence|].
    replace (int64_ok (- dec_val (c :: t))) with true by (unfold int64_ok; lia). f_equal; lia.
Qed.
Lemma from_real s f ds fs : minus s f -> ds ++ fs <> [] -> Forall digit ds -> Forall digit fs ->
  from_chars_real (s ++ ds ++ [46] ++ fs) = Some (f * numeral (ds ++ fs), length fs).
Proof.
  intros M N Fd Ff. rewrite numeral_dec_val. unfold from_chars_real.
  assert (SD : span_digits (ds ++ 46 :: fs) = (ds, 46 :: fs)) by (apply span_digits_app; [apply digit_reg; exact Fd|reflexivity]).
  assert (SF : span_digits fs = (fs, [])) by (apply span_digits_all; apply digit_reg; exact Ff).
  destruct M as [[-> ->]|[-> ->]]; cbn [app].
  - assert (exists c t, ds ++ 46 :: fs = c :: t /\ (c =? 45) = false) as (c & t & E & Ec).
    { destruct ds as [|c ds]; [exists 46, fs; auto|]. apply digit_head; [discriminate|exact Fd]. }
    rewrite E, Ec, <- E, SD. change (46 =? 46) with true. cbv iota. rewrite SF. cbn [fst].
    destruct (ds ++ fs) as [|x y]; [congruence|]. f_equal; f_equal; lia.
  - change (45 =? 45) with true. cbv iota. rewrite SD. change (46 =? 46) with true. cbv iota. rewrite SF. cbn [fst].
    destruct (ds ++ fs) as [|x y]; [congruence|]. f_equal; f_equal; lia.
Qed.

Lemma back_int s f ds : minus s f -> ds <> [] -> Forall digit ds -> - 2 ^ 63 <= f * numeral ds < 2 ^ 63 -> (length (s ++ ds) <= buf)%nat ->
  back (s ++ ds) (ONum (f * numeral ds)).
Proof.
  intros M N Fd V L. apply back_token; try exact L; try discriminate.
  - destruct s; [exact N|discriminate].
  - apply Forall_app. split; [eapply minus_regular; eauto|apply digits_regular; exact Fd].
  - intros k st R Q Sf. assert (K : lit_kind false (s ++ ds) = Some false).
    { rewrite (kind_minus s f) by exact M. rewrite <- (app_nil_r ds), kind_app by exact Fd. reflexivity. }
    destruct (not_keyword _ _ K) as (K1 & K2 & K3).
    assert (G : exists s2, determine_number buf (rrefs P) (f * numeral ds) st = (DVal (ONum (f * numeral ds)), s2) /\ reads buf s2 k).
    { destruct (rrefs P) eqn:RR; [apply determine_number_safe; auto; exact two|]. exists st. split; [reflexivity|exact R]. }
    destruct G as (s2 & G1 & G2). exists s2. split; [|exact G2].
    unfold determine. rewrite K1, K2, K3, K, (from_int s f ds) by assumption. rewrite G1. reflexivity.
Qed.
Lemma back_dec s f ds fs : minus s f -> ds ++ fs <> [] -> Forall digit ds -> Forall digit fs -> (length (s ++ ds ++ [46%Z] ++ fs) <= buf)%nat ->
  back (s ++ ds ++ [46] ++ fs) (OReal (f * numeral (ds ++ fs)) (length fs)).
Proof.
  intros M N Fd Ff L. apply back_token; try exact L; try discriminate.
  - destruct s; [destruct ds|]; discriminate.
  - repeat (apply Forall_app; split); [eapply minus_regular; eauto|apply digits_regular; exact Fd|repeat constructor|apply digits_regular; exact Ff].
  - intros k st R Q Sf. assert (K : lit_kind false (s ++ ds ++ [46] ++ fs) = Some true).
    { rewrite (kind_minus s f) by exact M. rewrite kind_app by exact Fd. cbn [app lit_kind]. change (46 =? 46) with true. cbv iota.
      rewrite <- (app_nil_r fs), kind_app by exact Ff. reflexivity. }
    destruct (not_keyword _ _ K) as (K1 & K2 & K3).
    exists st. split; [|exact R]. unfold determine. rewrite K1, K2, K3, K, (from_real s f ds fs) by assumption. reflexivity.
Qed.

(** * Names *)
Lemma hexval_regular c v : hexval c v -> is_regular c = true /\ 0 <= v < 16 /\ name_nibble c mod 16 = v /\ c <> 62 /\ c <> 60 /\ hex_val c = Some v.
Proof.
  intro H. assert (B : is_byte c /\ 0 <= v < 16) by (unfold hexval, is_byte in *; lia). destruct B as [B V].
  pose proof (byte_check (fun c => match hex_val c with Some v => is_regular c && (name_nibble c mod 16 =? v) && negb (c =? 62) && negb (c =? 60) | None => true end)
    ltac:(vm_compute; reflexivity) c B) as Q. cbv beta in Q.
  assert (E : hex_val c = Some v).
  { unfold hex_val, is_digit. destruct H as [[H ->]|[[H ->]|[H ->]]].
    - replace ((48 <=? c) && (c <=? 57)) with true by lia. reflexivity.
    - replace ((48 <=? c) && (c <=? 57)) with false by lia. replace ((65 <=? c) && (c <=? 70)) with true by lia. reflexivity.
    - replace ((48 <=? c) && (c <=? 57)) with false by lia. replace ((65 <=? c) && (c <=? 70)) with false by lia. replace ((97 <=? c) && (c <=? 102)) with true by lia. reflexivity. }
  rewrite E in Q. apply andb_true_iff in Q. destruct Q as [Q Q4]. apply andb_true_iff in Q. destruct Q as [Q Q3].
  apply andb_true_iff in Q. destruct Q as [Q1 Q2]. repeat split; auto; lia.
Qed.
Lemma nibble_pair a b h l : hexval a h -> hexval b l -> u8 (Z.lor (name_nibble a * 16) (Z.land (name_nibble b) 15)) = 16 * h + l.
Proof.
  intros A B. destruct (hexval_regular _ _ A) as (_ & Vh & Ea & _). destruct (hexval_regular _ _ B) as (_ & Vl & Eb & _).
  change 15 with (Z.ones 4). rewrite Z.land_ones by lia. change (2 ^ 4) with 16. rewrite Eb.
  assert (X : Z.lor (name_nibble a * 16) l = name_nibble a * 16 + l) by (apply (lor_add (name_nibble a) l 4); lia).
  rewrite X. unfold u8. rewrite <- Ea. revert Vl. clear. generalize (name_nibble a). intros x Vl. Z.div_mod_to_equations. lia.
Qed.
Lemma spelled_unescape t n : name_spelled t n -> Forall (fun c => is_regular c = true) t /\ unescape_name t = n.
Proof.
  induction 1 as [|c t n Pc Nc _ [IH1 IH2]|a b h l t n A B _ [IH1 IH2]]; [split; [constructor|reflexivity]| |].
  - split; [constructor; [apply plain_iff; exact Pc|exact IH1]|]. cbn [unescape_name]. replace (c =? 35) with false by lia. rewrite IH2. reflexivity.
  - split.
    + constructor; [reflexivity|]. constructor; [apply (hexval_regular _ _ A)|]. constructor; [apply (hexval_regular _ _ B)|exact IH1].
    + cbn [unescape_name]. change (35 =? 35) with true. cbv iota. rewrite (nibble_pair a b h l A B), IH2. reflexivity.
Qed.
Lemma delim_token c r : is_delim c = true -> c <> 37 -> (r = [] -> c <> 60 /\ c <> 62) ->
  exists ty t r', tok buf (c :: r) = Some ((ty, t), r') /\ ty <> TLit.
Proof. intros. eapply tok_delim_nonlit; eauto. Qed.

Lemma back_nm t n : name_spelled t n -> (length t <= buf)%nat -> back (47 :: t) (OName n).
Proof.
  intros Sp L k s D St (Sep & Lone & _) _. destruct (spelled_unescape t n Sp) as [R U].
  cbn [app] in St.
  assert (T : tok buf (47 :: t ++ k) = Some ((TSlash, [47]), t ++ k)) by (apply tok_delim1; reflexivity).
  destruct (next_stands _ _ _ _ _ St T) as (s1 & Nx & _ & _ & Q). rewrite (Q ltac:(discriminate)) in Nx.
  assert (G : exists s', read_name buf (mk_tst [] (t ++ k)) = (n, s') /\ stands s' k).
  { unfold read_name. cbn [tin]. destruct t as [|c t].
    - cbn in U. subst n. cbn [app]. destruct k as [|c k]; [eexists; split; [reflexivity|apply stands_reads; constructor]|].
      cbn in Sep. destruct Sep as [S1 S2]. specialize (S1 (or_introl eq_refl)). specialize (S2 eq_refl).
      apply not_plain in S1. destruct (is_ws c) eqn:W.
      + eexists; split; [reflexivity|]. apply stands_reads. constructor.
      + cbn [orb] in S1. destruct (delim_token c k S1 S2) as (ty & x & r & Tk & NL).
        { intros ->. destruct (Lone eq_refl). split; congruence. }
        unfold next_token. cbn [tq tin]. rewrite Tk.
        destruct ty; try congruence; (eexists; split; [reflexivity|]; apply stands_reads; unfold enqueue; cbn [tq tin app]; eapply reads_1; exact Tk).
    - cbn [app]. assert (Rc : is_regular c = true) by (inversion R; assumption). destruct (regular_spec _ Rc) as [W _]. rewrite W.
      unfold next_token. cbn [tq tin]. change (c :: t ++ k) with ((c :: t) ++ k).
      destruct (tok_lit_halts buf (c :: t) k ltac:(discriminate) R) as (k' & Tk & E); [|exact L|].
      + apply (halts_of (47 :: c :: t)); [|exact Sep]. right. destruct (open_last (c :: t) ltac:(discriminate) R) as [X|(x & d & X & Pd)].
        * exfalso. injection X as -> ->. discriminate Rc.
        * exists (47 :: x), d. rewrite X. auto.
      + rewrite Tk, U. eexists; split; [reflexivity|]. exists k'. split; [constructor|exact E]. }
  destruct G as (s' & G1 & G2).
  exists (TSlash, [47]), (mk_tst [] (t ++ k)), DName, (mk_tst [] (t ++ k)), s', 1%nat.
  split; [exact Nx|]. split; [discriminate|]. split; [discriminate|]. split; [reflexivity|].
  split; [intros fuel Hf; destruct fuel; [lia|]; rewrite read_data_S, G1; reflexivity|].
  split; [exact G2|discriminate].
Qed.

(** * Strings *)
Lemma back_lit l : literal l -> Forall supported l -> chained supported_follow l -> back (40 :: text l ++ [41]) (OStr false (value l)).
Proof.
  intros (O & C & B) Su Sf k s D St _ _.
  assert (X : (40 :: text l ++ [41]) ++ k = 40 :: text l ++ 41 :: k) by (cbn [app]; rewrite <- app_assoc; reflexivity). rewrite X in St.
  assert (T : tok buf (40 :: text l ++ 41 :: k) = Some ((TLParen, [40]), text l ++ 41 :: k)) by (apply tok_delim1; reflexivity).
  destruct (next_stands _ _ _ _ _ St T) as (s1 & Nx & _ & _ & Q). rewrite (Q ltac:(discriminate)) in Nx.
  assert (RS : read_string SNorm 0 (text l ++ 41 :: k) = (value l, k))
    by (apply (reads_pieces l 0 k O); [apply chained_and; assumption|exact B|exact Su]).
  exists (TLParen, [40]), (mk_tst [] (text l ++ 41 :: k)), DStr, (mk_tst [] (text l ++ 41 :: k)), (mk_tst [] k), 1%nat.
  split; [exact Nx|]. split; [discriminate|]. split; [discriminate|]. split; [reflexivity|].
  split; [intros fuel Hf; destruct fuel; [lia|]; rewrite read_data_S; cbn [tin tq]; rewrite RS; reflexivity|].
  split; [apply stands_reads; constructor|discriminate].
Qed.

Lemma hex_spelled_digits t ds : hex_spelled t ds -> forall k, hex_digits (t ++ 62 :: k) = (ds, k).
Proof.
  induction 1 as [|c t ds W _ IH|c v t ds H _ IH]; intro k; [reflexivity| |]; cbn [app hex_digits].
  - unfold white in W. cbn in W. replace (c =? 62) with false by lia. rewrite IH.
    replace (is_hex c) with false; [reflexivity|]. unfold is_hex, hex_val, is_digit.
    replace ((48 <=? c) && (c <=? 57)) with false by lia. replace ((65 <=? c) && (c <=? 70)) with false by lia. replace ((97 <=? c) && (c <=? 102)) with false by lia. reflexivity.
  - destruct (hexval_regular _ _ H) as (_ & _ & _ & N & _ & E). replace (c =? 62) with false by lia. rewrite IH. unfold is_hex. rewrite E. reflexivity.
Qed.
Lemma hex_pair_val h l : 0 <= h < 16 -> 0 <= l < 16 -> u8 (Z.lor (h * 16) l) = 16 * h + l.
Proof. intros H L. change 16 with (2 ^ 4) at 1. rewrite lor_add by lia. unfold u8. change (2 ^ 4) with 16. rewrite Z.mod_small by lia. lia. Qed.
Lemma hex_regular_ws c : is_regular c = true -> is_ws c = false.
Proof. intro H. apply regular_spec in H. tauto. Qed.
Lemma hex_text_from ds s : hex_text ds s -> from_hex None (if Nat.odd (length ds) then ds ++ [48] else ds) = s.
Proof.
  induction 1 as [|a h H|a b h l t s H L _ IH]; [reflexivity| |].
  - change (Nat.odd (length [a])) with true. cbv iota. cbn [app from_hex].
    destruct (hexval_regular _ _ H) as (R & V & _ & _ & _ & E). rewrite (hex_regular_ws _ R), E. change (is_ws 48) with false. cbv iota.
    change (hex_val 48) with (Some 0). rewrite hex_pair_val by lia. f_equal. lia.
  - change (Nat.odd (length (a :: b :: t))) with (Nat.odd (length t)).
    destruct (hexval_regular _ _ H) as (R & V & _ & _ & _ & E). destruct (hexval_regular _ _ L) as (R' & V' & _ & _ & _ & E').
    assert (G : forall m, from_hex None (a :: b :: m) = 16 * h + l :: from_hex None m).
    { intro m. cbn [from_hex]. rewrite (hex_regular_ws _ R), (hex_regular_ws _ R'), E, E', hex_pair_val by lia. reflexivity. }
    rewrite <- IH. destruct (Nat.odd (length t)); [change ((a :: b :: t) ++ [48]) with (a :: b :: (t ++ [48]))|]; apply G.
Qed.
Lemma back_hx t ds x : hex_spelled t ds -> hex_text ds x -> back (60 :: t ++ [62]) (OStr true x).
Proof.
  intros Sp Tx k s D St _ _.
  assert (X : (60 :: t ++ [62]) ++ k = 60 :: t ++ 62 :: k) by (cbn [app]; rewrite <- app_assoc; reflexivity). rewrite X in St.
  assert (T : tok buf (60 :: t ++ 62 :: k) = Some ((TLAng, [60]), t ++ 62 :: k)).
  { unfold tok. cbn [tok_from]. change (is_ws 60) with false. cbv iota. change (60 =? 37) with false. cbv iota.
    change ((60 =? 60) || (60 =? 62)) with true. cbv iota. inversion Sp as [|c t' ds' W|c v t' ds' H]; subst; cbn [app]; [reflexivity| |].
    - unfold white in W. cbn in W. replace (c =? 60) with false by lia. reflexivity.
    - destruct (hexval_regular _ _ H) as (_ & _ & _ & _ & N & _). replace (c =? 60) with false by lia. reflexivity. }
  destruct (next_stands _ _ _ _ _ St T) as (s1 & Nx & _ & _ & Q). rewrite (Q ltac:(discriminate)) in Nx.
  assert (RH : read_hex (t ++ 62 :: k) = (x, k)).
  { unfold read_hex, read_hex_text. rewrite (hex_spelled_digits t ds Sp). rewrite (hex_text_from ds x Tx). reflexivity. }
  exists (TLAng, [60]), (mk_tst [] (t ++ 62 :: k)), DHex, (mk_tst [] (t ++ 62 :: k)), (mk_tst [] k), 1%nat.
  split; [exact Nx|]. split; [discriminate|]. split; [discriminate|]. split; [reflexivity|].
  split; [intros fuel Hf; destruct fuel; [lia|]; rewrite read_data_S; cbn [tin tq]; rewrite RH; reflexivity|].
  split; [apply stands_reads; constructor|]. split; [reflexivity|]. split; [exact RH|reflexivity].
Qed.

(** * References *)
Lemma blank_halts w k : w <> [] -> blank w -> halts (w ++ k).
Proof.
  intros N B. destruct B as [|c w W _|b e w _ _ _ _]; [congruence| |reflexivity]. cbn. apply white_iff in W. rewrite W. reflexivity.
Qed.
Lemma tok_digits a w k : a <> [] -> Forall digit a -> (length a <= buf)%nat -> w <> [] -> blank w ->
  exists k', tok buf (a ++ w ++ k) = Some ((TLit, a), k') /\ strip k' = strip k.
Proof.
  intros N F L W B. destruct (tok_lit_halts buf a (w ++ k) N (digits_regular a F) (blank_halts w k W B) L) as (k' & T & E).
  exists k'. split; [exact T|]. rewrite E. apply strip_blank. exact B.
Qed.
Lemma numeral_nonneg ds : Forall digit ds -> 0 <= numeral ds.
Proof.
  intro F. unfold numeral. assert (G : forall v, 0 <= v -> 0 <= fold_left (fun v d => 10 * v + (d - 48)) ds v); [|apply G; lia].
  induction F as [|d ds Hd _ IH]; intros v Hv; [exact Hv|]. cbn [fold_left]. apply IH. unfold digit in Hd. lia.
Qed.
Lemma from_digits ds : ds <> [] -> Forall digit ds -> numeral ds < 2 ^ 63 -> from_chars_int ds = Some (numeral ds).
Proof.
  intros N F V. pose proof (numeral_nonneg ds F). pose proof (from_int [] 1 ds (or_introl (conj eq_refl eq_refl)) N F) as E.
  cbn [app] in E. rewrite E by lia. f_equal. lia.
Qed.
Lemma back_rf a b w v : rrefs P = true -> a <> [] -> Forall digit a -> b <> [] -> Forall digit b -> w <> [] -> blank w -> v <> [] -> blank v ->
  numeral a < 2 ^ 32 -> numeral b < 2 ^ 16 -> (length a <= buf)%nat -> (length b <= buf)%nat ->
  back (a ++ w ++ b ++ v ++ [82]) (ORef (numeral a) (numeral b)).
Proof.
  intros RR Na Fa Nb Fb Nw Bw Nv Bv Va Vb La Lb k s D St (Sep & _ & _) _.
  assert (X : (a ++ w ++ b ++ v ++ [82]) ++ k = a ++ w ++ (b ++ v ++ ([82] ++ k))) by (rewrite <- !app_assoc; reflexivity). rewrite X in St.
  destruct (tok_digits a w (b ++ v ++ [82] ++ k) Na Fa La Nw Bw) as (k1 & T1 & E1).
  destruct (tok_digits b v ([82] ++ k) Nb Fb Lb Nv Bv) as (k2 & T2 & E2).
  assert (Hk : halts k).
  { apply (halts_of (a ++ w ++ b ++ v ++ [82])); [|exact Sep]. right. exists (a ++ w ++ b ++ v), 82. split; [rewrite <- !app_assoc; reflexivity|].
    apply plain_iff. reflexivity. }
  destruct (tok_lit_halts buf [82] k ltac:(discriminate) ltac:(repeat constructor) Hk ltac:(cbn [length]; lia)) as (k3 & T3 & E3).
  rewrite <- (tok_same buf k1) in T2 by exact E1. rewrite <- (tok_same buf k2) in T3 by exact E2.
  destruct (next_stands _ _ _ _ _ St T1) as (s1 & Nx & R1 & Q & _).
  pose proof (numeral_nonneg a Fa). pose proof (numeral_nonneg b Fb).
  assert (K : lit_kind false a = Some false) by (rewrite <- (app_nil_r a), kind_app by exact Fa; reflexivity).
  destruct (not_keyword _ _ K) as (K1 & K2 & K3).
  exists (TLit, a), s1, (DVal (ORef (numeral a) (numeral b))), (mk_tst [] k3), (mk_tst [] k3), 1%nat.
  split; [exact Nx|]. split; [discriminate|]. split; [discriminate|]. split.
  { unfold determine. rewrite K1, K2, K3, K, from_digits by (auto; lia). rewrite RR.
    rewrite (determine_number_ref buf (numeral a) (numeral b) s1 k1 b k2 k3 two R1 Q T2 (from_digits b Nb Fb ltac:(lia)) T3).
    unfold u32, u16. rewrite !Z.mod_small by lia. reflexivity. }
  split; [intros fuel Hf; destruct fuel; [lia|]; reflexivity|]. split; [exists k3; split; [constructor|exact E3]|discriminate].
Qed.

(** * How texts begin *)
Definition closing (e : list Z) : Prop := (exists k, e = 93 :: k) \/ (exists k, e = 62 :: 62 :: k).
Lemma closing_tok e : closing e -> exists ty x r, tok buf e = Some ((ty, x), r) /\ ty <> TLit.
Proof.
  intros [[k ->]|[k ->]]; [exists TRSq, [93], k|exists TDRAng, [62; 62], k]; (split; [reflexivity|discriminate]).
Qed.
Lemma separate_closing t r e : closing e -> separate t r -> separate t (r ++ e).
Proof.
  intros C Sp. destruct r as [|d r]; [|exact Sp]. cbn [app].
  assert (Q : forall c, c = 93 \/ c = 62 -> ~ plain c /\ c <> 37).
  { intros c H. split; [|lia]. intros [_ H']. apply H'. unfold special. cbn. lia. }
  destruct C as [[k ->]|[k ->]]; cbn; (split; [intros _; apply Q; auto|intros _; lia]).
Qed.
Lemma closing_long r e : closing e -> r ++ e <> [60] /\ r ++ e <> [62].
Proof.
  intro C. destruct C as [[k ->]|[k ->]]; destruct r as [|a [|b r]]; cbn [app]; split; discriminate.
Qed.
Lemma first_same a b : strip a = strip b -> first_ok buf a -> first_ok buf b.
Proof. intros E (ty & x & r & T & N). exists ty, x, r. rewrite <- (tok_same buf _ _ E). auto. Qed.
Lemma kind_not_R t b : lit_kind false t = Some b -> t <> [82].
Proof. intros K ->. discriminate K. Qed.

Lemma lit_first t k : t <> [] -> Forall (fun c => is_regular c = true) t -> (length t <= buf)%nat -> separate t k -> t <> [82] ->
  exists ty x r, tok buf (t ++ k) = Some ((ty, x), r) /\ ~ (ty = TLit /\ x = [82]) /\
    (ty = TLit -> from_chars_int x <> None -> first_ok buf k -> first_ok buf r).
Proof.
  intros N R L Sp NR. destruct (tok_lit_halts buf t k N R (halts_of t k (open_last t N R) Sp) L) as (k' & T & E).
  exists TLit, t, k'. split; [exact T|]. split; [tauto|]. intros _ _ F. eapply first_same; [symmetry; exact E|exact F].
Qed.
Lemma delim_first ty x r k : ty <> TLit -> tok buf k = Some ((ty, x), r) ->
  forall q, exists ty x r, tok buf k = Some ((ty, x), r) /\ ~ (ty = TLit /\ x = [82]) /\
    (ty = TLit -> from_chars_int x <> None -> first_ok buf q -> first_ok buf r).
Proof. intros N T q. exists ty, x, r. split; [exact T|]. split; [tauto|]. intro. congruence. Qed.

Lemma first_spelled t o k : spelled P t o -> separate t k ->
  exists ty x r, tok buf (t ++ k) = Some ((ty, x), r) /\ ~ (ty = TLit /\ x = [82]) /\
    (ty = TLit -> from_chars_int x <> None -> first_ok buf k -> first_ok buf r).
Proof.
  intros H Sp. destruct H as [| | |s f ds M N Fd V L|s f ds fs M N Fd Ff L|t n Hn L|l Hl Hs Hf|t ds x Hx Ht|a b w v RR Na Fa Nb Fb Nw Bw Nv Bv Va Vb La Lb|t l Hr|t e d Hr Hn Hp Hd].
  - apply lit_first; auto; [discriminate|apply keyword_regular; reflexivity|change (length (bs "null")) with 4%nat; lia|discriminate].
  - apply lit_first; auto; [discriminate|apply keyword_regular; reflexivity|change (length (bs "true")) with 4%nat; lia|discriminate].
  - apply lit_first; auto; [discriminate|apply keyword_regular; reflexivity|change (length (bs "false")) with 5%nat; lia|discriminate].
  - apply lit_first; auto.
    + destruct s; [exact N|discriminate].
    + apply Forall_app. split; [eapply minus_regular; eauto|apply digits_regular; exact Fd].
    + apply (kind_not_R _ false). rewrite (kind_minus s f) by exact M. rewrite <- (app_nil_r ds), kind_app by exact Fd. reflexivity.
  - apply lit_first; auto.
    + destruct s; [destruct ds|]; discriminate.
    + repeat (apply Forall_app; split); [eapply minus_regular; eauto|apply digits_regular; exact Fd|repeat constructor|apply digits_regular; exact Ff].
    + apply (kind_not_R _ true). rewrite (kind_minus s f) by exact M. rewrite kind_app by exact Fd. cbn [app lit_kind]. change (46 =? 46) with true. cbv iota.
      rewrite <- (app_nil_r fs), kind_app by exact Ff. reflexivity.
  - eapply (delim_first TSlash); [discriminate|]. apply (tok_delim1 _ 47). reflexivity.
  - eapply (delim_first TLParen); [discriminate|]. apply (tok_delim1 _ 40). reflexivity.
  - assert (exists r, tok buf ((60 :: t ++ [62]) ++ k) = Some ((TLAng, [60]), r)) as (r & T).
    { unfold tok. cbn [app tok_from]. change (is_ws 60) with false. cbv iota. change (60 =? 37) with false. cbv iota.
      change ((60 =? 60) || (60 =? 62)) with true. cbv iota. inversion Hx as [|c t' ds' W|c v t' ds' H]; subst; cbn [app].
      - eexists; reflexivity.
      - unfold white in W. cbn in W. replace (c =? 60) with false by lia. eexists; reflexivity.
      - destruct (hexval_regular _ _ H) as (_ & _ & _ & _ & Nc & _). replace (c =? 60) with false by lia. eexists; reflexivity. }
    eapply (delim_first TLAng); [discriminate|exact T].
  - replace ((a ++ w ++ b ++ v ++ [82]) ++ k) with (a ++ w ++ (b ++ v ++ ([82] ++ k))) by (rewrite <- !app_assoc; reflexivity).
    destruct (tok_digits a w (b ++ v ++ [82] ++ k) Na Fa La Nw Bw) as (k1 & T1 & E1).
    destruct (tok_digits b v ([82] ++ k) Nb Fb Lb Nv Bv) as (k2 & T2 & E2).
    assert (NR : forall x, Forall digit x -> x <> [82]).
    { intros x F ->. inversion F as [|? ? D _]. unfold digit in D. lia. }
    exists TLit, a, k1. split; [exact T1|]. split; [intros [_ ->]; exact (NR [82] Fa eq_refl)|]. intros _ _ _.
    exists TLit, b, k2. rewrite (tok_same buf k1 _ E1). split; [exact T2|]. intros [_ ->]. exact (NR [82] Fb eq_refl).
  - eapply (delim_first TLSq); [discriminate|]. apply (tok_delim1 _ 91). reflexivity.
  - eapply (delim_first TDLAng); [discriminate|]. reflexivity.
Qed.

Lemma first_row r l e : row P r l -> closing e -> first_ok buf (r ++ e).
Proof.
  intros H C. destruct H as [w B|w t o r l B Hs Sp _].
  - apply (first_same e); [symmetry; apply strip_blank; exact B|]. destruct (closing_tok e C) as (ty & x & q & T & N). exists ty, x, q. split; [exact T|tauto].
  - rewrite <- !app_assoc. apply (first_same (t ++ r ++ e)); [symmetry; apply strip_blank; exact B|].
    destruct (first_spelled t o (r ++ e) Hs (separate_closing _ _ _ C Sp)) as (ty & x & q & T & N & _). exists ty, x, q. auto.
Qed.
Lemma safe_row r l e : row P r l -> closing e -> num_safe buf (r ++ e).
Proof.
  intros H C. destruct H as [w B|w t o r l B Hs Sp Hr].
  - apply (num_safe_same e); [symmetry; apply strip_blank; exact B|]. destruct (closing_tok e C) as (ty & x & q & T & N).
    unfold num_safe. rewrite T. destruct ty; auto; congruence.
  - rewrite <- !app_assoc. apply (num_safe_same (t ++ r ++ e)); [symmetry; apply strip_blank; exact B|].
    destruct (first_spelled t o (r ++ e) Hs (separate_closing _ _ _ C Sp)) as (ty & x & q & T & N & G).
    unfold num_safe. rewrite T. destruct ty; auto. destruct (from_chars_int x) eqn:E; auto.
    destruct (G eq_refl ltac:(discriminate) (first_row r l e Hr C)) as (a1 & a2 & a3 & A1 & A2). rewrite A1. exact A2.
Qed.

(** * Arrays and dictionaries *)
Inductive rows : list Z -> list obj -> Prop :=
| rows_nil w : blank w -> rows w []
| rows_cons w t o r l : blank w -> spelled P t o -> back t o -> separate t r -> row P r l -> rows r l -> rows (w ++ t ++ r) (o :: l).

Lemma follow_row t o r l e : separate t r -> row P r l -> closing e -> can_follow P t o (r ++ e).
Proof.
  intros Sp Hr C. split; [apply separate_closing; assumption|]. split; [intros _; apply closing_long; exact C|].
  destruct o; auto. intros _. eapply safe_row; eauto.
Qed.

Lemma back_arr l : forall t acc D k s, rows t l -> stands s (t ++ 93 :: k) -> (Forall (fun o => D + S (inner o) <= rmax P)%nat l) ->
  exists F, forall fuel, (F <= fuel)%nat -> read_array P fuel D acc s = Ok (acc ++ l, mk_tst [] k).
Proof.
  induction l as [|o l IH]; intros t acc D k s Hr St HD; inversion Hr as [w B|w t' o' r l' B Hs Hb Sp Hrow Hrows]; subst.
  - apply stands_blank in St; [|exact B].
    destruct (next_stands _ _ _ _ _ St (tok_delim1 buf 93 TRSq k eq_refl)) as (s1 & Hn & _ & _ & Hq).
    exists 1%nat. intros fuel Hf. destruct fuel; [lia|]. rewrite read_array_S.
    rewrite Hn, (Hq ltac:(discriminate)), app_nil_r. reflexivity.
  - inversion HD as [|? ? HD1 HD2]; subst. rewrite <- !app_assoc in St. apply stands_blank in St; [|exact B].
    assert (C : closing (93 :: k)) by (left; eauto).
    destruct (Hb (r ++ 93 :: k) s (S D) St (follow_row t' o r l _ Sp Hrow C) ltac:(lia)) as
      (tk & s1 & dt & s2 & s3 & F & Hn & Hsq & Hda & Hdet & Hrd & Hs3 & _).
    destruct (IH r (acc ++ [o]) D k s3 Hrows Hs3 HD2) as (F3 & Hra).
    exists (S (S (F + F3))). intros fuel Hf. destruct fuel as [|fuel]; [lia|].
    rewrite read_array_S. rewrite Hn. destruct tk as [ty x]. cbn [fst] in Hsq.
    assert (RV : read_variant P fuel D (ty, x) s1 = Ok (Some o, s3)).
    { destruct fuel as [|fuel]; [lia|]. rewrite read_variant_S.
      rewrite (proj2 (Nat.ltb_ge (rmax P) (S D))) by lia. rewrite Hdet. cbn [bind]. apply Hrd. lia. }
    assert (E2 : read_array P fuel D (acc ++ [o]) s3 = Ok (acc ++ o :: l, mk_tst [] k)).
    { rewrite Hra by lia. rewrite <- app_assoc. reflexivity. }
    destruct ty; try congruence; rewrite RV; cbn [bind]; exact E2.
Qed.

Notation flat e := (flat_map (fun x : list Z * obj => [OName (fst x); snd x]) e).
Lemma back_dct e : forall t acc con D k s, rows t (flat e) -> stands s (t ++ 62 :: 62 :: k) ->
  Forall (fun p => (D + Nat.max 1 (inner (snd p)) <= rmax P)%nat) e ->
  exists F, forall fuel, (F <= fuel)%nat ->
      read_dict P fuel D acc con s = Ok (dfinish (fold_left dstep e (acc, con)), mk_tst [] k).
Proof.
  induction e as [|[key v] e IH]; intros t acc con D k s Hr St HD; cbn [flat_map fst snd app] in Hr.
  - inversion Hr as [w B|]; subst. apply stands_blank in St; [|exact B].
    assert (T : tok buf (62 :: 62 :: k) = Some ((TDRAng, [62; 62]), k)) by reflexivity.
    destruct (next_stands _ _ _ _ _ St T) as (s1 & Hn & _ & _ & Hq).
    exists 1%nat. intros fuel Hf. destruct fuel; [lia|]. rewrite read_dict_S.
    rewrite Hn, (Hq ltac:(discriminate)). cbn [fold_left]. unfold dfinish. cbn [fst snd]. reflexivity.
  - inversion Hr as [|w t1 o1 r1 l1 B1 Hs1 K Sp1 Hrow1 Hr1]; subst. clear Hr.
    pose proof Hr1 as Hr1'. inversion Hr1' as [|w2 t2 o2 r2 l2 B2 Hs2 Hv Sp2 Hrow2 Hr2]; subst. clear Hr1'.
    inversion HD as [|? ? HD1 HD2]; subst. cbn [fst snd] in *.
    assert (C : closing (62 :: 62 :: k)) by (right; eauto).
    rewrite <- !app_assoc in St. apply stands_blank in St; [|exact B1].
    pose proof (follow_row t1 (OName key) (w2 ++ t2 ++ r2) _ _ Sp1 Hrow1 C) as F1. rewrite <- !app_assoc in F1.
    destruct (K _ s (S D) St F1 ltac:(cbn [inner]; lia)) as
      (tk & s1 & dt & s2 & s3 & F & Hn & Hsq & Hda & Hdet & Hrd & Hs3 & _).
    apply stands_blank in Hs3; [|exact B2].
    destruct (Hv _ s3 D Hs3 (follow_row t2 v r2 _ _ Sp2 Hrow2 C) ltac:(lia)) as
      (tk' & s4 & dt' & s5 & s6 & F' & Hn' & Hsq' & Hda' & Hdet' & Hrd' & Hs6 & Hhex).
    set (st := dstep (acc, con) (key, v)).
    destruct (IH r2 (fst st) (snd st) D k s6 Hr2 Hs6 HD2) as (F3 & Hra).
    exists (S (S (F + F' + F3 + 1))). intros fuel Hf. destruct fuel as [|fuel]; [lia|].
    rewrite read_dict_S. rewrite Hn. destruct tk as [ty y]. cbn [fst] in Hda.
    assert (RV : read_variant P fuel D (ty, y) s1 = Ok (Some (OName key), s3)).
    { destruct fuel as [|fuel]; [lia|]. rewrite read_variant_S.
      rewrite (proj2 (Nat.ltb_ge (rmax P) (S D))) by lia. rewrite Hdet. cbn [bind]. apply Hrd. lia. }
    assert (RD : forall con' acc', st = (acc', con') -> read_dict P fuel D acc' con' s6 = Ok (dfinish (fold_left dstep e st), mk_tst [] k)).
    { intros con' acc' E. pose proof (Hra fuel ltac:(lia)) as G. rewrite E in G |- *. exact G. }
    assert (GOAL : match (beq key (bs "Contents")), dt' with
          | true, DHex => let '(x0, k0) := read_hex (tin s5) in read_dict P fuel D acc (Some x0) (mk_tst (tq s5) k0)
          | _, _ => do (v', s5') <- read_data P fuel D dt' s5;
             match v' with None => Err EInvalidDataType | Some o => read_dict P fuel D (dict_add key o acc) con s5' end
          end = Ok (dfinish (fold_left dstep e st), mk_tst [] k)).
    { assert (STD : st = (dict_add key v acc, con) ->
         (do (v', s5') <- read_data P fuel D dt' s5;
             match v' with None => Err EInvalidDataType | Some o => read_dict P fuel D (dict_add key o acc) con s5' end)
         = Ok (dfinish (fold_left dstep e st), mk_tst [] k)).
      { intro E. rewrite Hrd' by lia. cbn [bind]. apply RD. exact E. }
      destruct (beq key (bs "Contents")) eqn:EK.
      - assert (CASES : (exists z, v = OStr true z) \/ forall z, v <> OStr true z).
        { destruct v as [| | | | |h z| | |]; try (right; discriminate). destruct h; [left; eauto|right; discriminate]. }
        destruct CASES as [[z ->]|NS].
        + destruct Hhex as (-> & Hrx & Htq). rewrite Hrx. rewrite <- Htq.
          assert (ED : st = (acc, Some z)) by (unfold st, dstep; cbn [fst snd]; rewrite EK; reflexivity).
          destruct s6 as [q6 t6]. cbn [tq tin] in *. apply RD. exact ED.
        + assert (ND : dt' <> DHex).
          { destruct v as [| | | | |h z| | |]; try exact Hhex. destruct h; [exfalso; eapply NS; reflexivity|exact Hhex]. }
          assert (STEQ : st = (dict_add key v acc, con)).
          { unfold st, dstep. cbn [fst snd]. rewrite EK. destruct v as [| | | | |h z| | |]; try reflexivity. destruct h; [exfalso; eapply NS; reflexivity|reflexivity]. }
          destruct dt'; try congruence; apply STD; exact STEQ.
      - apply STD. unfold st, dstep. cbn [fst snd]. rewrite EK. reflexivity. }
    cbn [fold_left]. fold st.
    destruct ty; try congruence; rewrite RV; cbn [bind]; rewrite Hn'; destruct tk' as [ty' y']; rewrite Hdet'; exact GOAL.
Qed.

Lemma dfold_any e d : NoDup (map fst e) -> Permutation e d -> sorted d -> dfinish (fold_left dstep e ([], None)) = d.
Proof.
  intros Hn Hp Hs. apply dict_ext; auto.
  - set (st := fold_left dstep e ([], None)).
    assert (sorted (fst st)) by (apply dstep_sorted; constructor).
    unfold dfinish. destruct (snd st); auto. apply dict_add_sorted; auto.
  - intro q. rewrite dfold_get; auto; [|constructor].
    rewrite (dict_get_perm q e d); auto.
    + destruct (dict_get q d); reflexivity.
    + apply sorted_nodup. exact Hs.
    + intro p. split; intro H; [eapply Permutation_in; eauto|]. eapply Permutation_in; [apply Permutation_sym; exact Hp|exact H].
Qed.

Scheme spelled_mut := Minimality for spelled Sort Prop
  with row_mut := Minimality for row Sort Prop.

Theorem spelled_back : forall t o, spelled P t o -> back t o.
Proof.
  apply (spelled_mut P back rows).
  - apply back_token; try discriminate; [apply keyword_regular; reflexivity|change (length (bs "null")) with 4%nat; lia|].
    intros k s R _ _. exists s. split; [reflexivity|exact R].
  - apply back_token; try discriminate; [apply keyword_regular; reflexivity|change (length (bs "true")) with 4%nat; lia|].
    intros k s R _ _. exists s. split; [reflexivity|exact R].
  - apply back_token; try discriminate; [apply keyword_regular; reflexivity|change (length (bs "false")) with 5%nat; lia|].
    intros k s R _ _. exists s. split; [reflexivity|exact R].
  - exact back_int.
  - exact back_dec.
  - exact back_nm.
  - exact back_lit.
  - exact back_hx.
  - exact back_rf.
  - intros t l _ Hr k s D St _ HD.
    assert (X : (91 :: t ++ [93]) ++ k = 91 :: t ++ 93 :: k) by (cbn [app]; rewrite <- app_assoc; reflexivity). rewrite X in St.
    destruct (next_stands _ _ _ _ _ St (tok_delim1 buf 91 TLSq _ eq_refl)) as (s1 & Hn & R1 & _ & _).
    destruct (back_arr l t [] D k s1 Hr (stands_reads _ _ R1) (inner_arr P Hbuf _ _ _ HD)) as (F & HF).
    exists (TLSq, [91]), s1, DArr, s1, (mk_tst [] k), (S F).
    split; [exact Hn|]. split; [discriminate|]. split; [discriminate|]. split; [reflexivity|].
    split; [|split; [apply stands_reads; constructor|discriminate]].
    intros fuel Hf. destruct fuel as [|fuel]; [lia|]. rewrite read_data_S, HF by lia. reflexivity.
  - intros t e d _ Hr Hn Hp Hs k s D St _ HD.
    assert (X : (60 :: 60 :: t ++ [62; 62]) ++ k = 60 :: 60 :: t ++ 62 :: 62 :: k) by (cbn [app]; rewrite <- app_assoc; reflexivity). rewrite X in St.
    assert (T : tok buf (60 :: 60 :: t ++ 62 :: 62 :: k) = Some ((TDLAng, [60; 60]), t ++ 62 :: 62 :: k)) by reflexivity.
    destruct (next_stands _ _ _ _ _ St T) as (s1 & Nx & R1 & _ & _).
    assert (HD' : Forall (fun p => (D + Nat.max 1 (inner (snd p)) <= rmax P)%nat) e).
    { apply Forall_forall. intros p Hi. pose proof (inner_dict P Hbuf _ _ _ HD) as A. rewrite Forall_forall in A. apply A. eapply Permutation_in; eauto. }
    destruct (back_dct e t [] None D k s1 Hr (stands_reads _ _ R1) HD') as (F & HF).
    exists (TDLAng, [60; 60]), s1, DDict, s1, (mk_tst [] k), (S F).
    split; [exact Nx|]. split; [discriminate|]. split; [discriminate|]. split; [reflexivity|].
    split; [|split; [apply stands_reads; constructor|discriminate]].
    intros fuel Hf. destruct fuel as [|fuel]; [lia|]. rewrite read_data_S, HF by lia. rewrite (dfold_any e d) by assumption. reflexivity.
  - exact rows_nil.
  - intros w t o r l B Hs Hb Sp Hr Hrs. apply rows_cons; assumption.
Qed.

Lemma spelled_parse w t o k : blank w -> spelled P t o -> can_follow P t o k -> (S (inner o) <= rmax P)%nat ->
  exists s, parse P (w ++ t ++ k) = Ok (Some o, s) /\ stands s k.
Proof.
  intros B Sp Fo Hd.
  destruct (spelled_back t o Sp k (mk_tst [] (w ++ t ++ k)) 1%nat (stands_blank _ _ _ B (stands_reads _ _ (reads_0 _ _))) Fo Hd)
    as (tk & s1 & dt & s2 & s' & F & Hn & _ & _ & Hdet & Hrd & Hs' & _).
  exists s'. split; [|exact Hs'].
  rewrite <- (parse_any_fuel P (w ++ t ++ k) (3 * length (w ++ t ++ k) + 3 + S F)) by lia.
  unfold read_next. rewrite Hn.
  replace (3 * length (w ++ t ++ k) + 3 + S F)%nat with (S (3 * length (w ++ t ++ k) + 3 + F)) by lia.
  rewrite read_variant_S. rewrite (proj2 (Nat.ltb_ge (rmax P) 1)) by lia. rewrite Hdet. cbn [bind]. apply Hrd. lia.
Qed.
End G.
