(** Instances of the general lemmas for the property file. *)
From Coq Require Import String.
From Verif Require Import Base TokModel WriteModel DictProofs TokProofs LexProofs RealProofs ObjSpec ObjProofs FuelProofs ParseProofs RealParse.
Local Open Scope Z_scope.

Lemma buf_default : rbuf default_params = 4095%nat. Proof. reflexivity. Qed.
Lemma max_default : rmax default_params = 256%nat. Proof. reflexivity. Qed.
Lemma buf20 : (20 <= rbuf default_params)%nat. Proof. apply Nat.leb_le. vm_compute. reflexivity. Qed.
Lemma buf27 : (27 <= rbuf default_params)%nat. Proof. apply Nat.leb_le. vm_compute. reflexivity. Qed.
Lemma max1 : (1 <= rmax default_params)%nat. Proof. apply Nat.leb_le. vm_compute. reflexivity. Qed.
Definition fl0 := mk_wf true false.
Lemma fl0_ok : flags_ok fl0. Proof. left. reflexivity. Qed.

Lemma escape_chars n : forall t, bytes_ok n -> escape_name n = Ok t -> Forall (fun c => is_regular c = true /\ 32 < c < 125) t.
Proof.
  induction n as [|c n IH]; intros t Hb H; cbn [escape_name] in H.
  - apply ok_inj in H. subst. constructor.
  - inversion Hb; subst. destruct (c =? 0) eqn:E0; [discriminate|].
    destruct (escape_name n) as [e| | |]; try discriminate. cbn [bind] in H. apply ok_inj in H. subst t.
    apply Forall_app. split; [|auto].
    pose proof (byte_check (fun c => (c =? 0) || forallb (fun x => is_regular x && (32 <? x) && (x <? 125)) (if name_plain c then [c] else 35 :: hex_byte c))
      ltac:(vm_compute; reflexivity) c H2) as Q. cbv beta in Q. rewrite E0 in Q. cbn [orb] in Q.
    rewrite forallb_forall in Q. apply Forall_forall. intros x Hx. specialize (Q x Hx).
    apply andb_true_iff in Q. destruct Q as [Q Q3]. apply andb_true_iff in Q. destruct Q as [Q1 Q2].
    apply Z.ltb_lt in Q2, Q3. auto.
Qed.

Lemma names_round_trip n k : bytes_ok n -> ~ In 0 n ->
  exists t, write_name n = Ok (47 :: t) /\
    Forall (fun c => is_regular c = true /\ 32 < c < 125) t /\
    ((length t <= 4095)%nat -> stops k ->
       exists s, parse default_params (47 :: t ++ k) = Ok (Some (OName n), s) /\ reads 4095 s k).
Proof.
  intros Hb Hz. destruct (escape_name_ok n Hb Hz) as [t Ht].
  assert (W : write_name n = Ok (47 :: t)) by (unfold write_name; rewrite Ht; reflexivity).
  exists t. split; [exact W|]. split; [eapply escape_chars; eauto|]. intros Hl Hk.
  apply (parse_back default_params fl0 (OName n) (47 :: t) k buf20 fl0_ok); auto.
  - split; [exact Hb|]. split; [exact Hz|]. intros t' Ht'. rewrite buf_default. congruence.
  - split; [auto|intros []].
  - apply Nat.leb_le. reflexivity.
Qed.

Lemma names_nul n : In 0 n -> write_name n = Err EInvalidName.
Proof. intro H. unfold write_name. rewrite escape_name_nul; auto. Qed.

Lemma long_names_refuted : exists n t, bytes_ok n /\ ~ In 0 n /\ write_name n = Ok t /\
  forall s, parse default_params (t ++ [32]) <> Ok (Some (OName n), s).
Proof.
  exists (repeat 65 4096), (47 :: repeat 65 4096).
  assert (A : Forall (fun c => c = 65) (repeat 65 4096)) by (apply Forall_forall; intros c Hc; apply repeat_spec in Hc; exact Hc).
  split; [eapply Forall_impl; [|exact A]; intros c ->; split; discriminate || reflexivity|].
  split; [intro H; apply repeat_spec in H; discriminate|].
  split; [vm_compute; reflexivity|].
  assert (B : match parse default_params ((47 :: repeat 65 4096) ++ [32]) with
              | Ok (Some (OName m), _) => (length m =? 4096)%nat | _ => false end = false) by (vm_compute; reflexivity).
  intros s H. rewrite H in B. rewrite repeat_length in B. discriminate B.
Qed.

Lemma literal_strings_round_trip x k : bytes_ok x ->
  parse default_params (write_string false x ++ k) = Ok (Some (OStr false x), mk_tst [] k).
Proof.
  intro Hb. 
  assert (Hs : reads (rbuf default_params) (mk_tst [] (write_string false x ++ k)) (write_string false x ++ k)) by constructor.
  assert (T : tok (rbuf default_params) (write_string false x ++ k) = Some ((TLParen, [40]), escape_string x ++ 41 :: k)).
  { unfold write_string. rewrite <- !app_assoc. cbn [app]. apply tok_delim1. reflexivity. }
  rewrite <- (parse_any_fuel default_params _ (S (S (3 * length (write_string false x ++ k) + 3)))) by lia.
  unfold read_next, next_token. cbn [tq tin]. rewrite T, ReadEq.read_variant_S.
  rewrite (proj2 (Nat.ltb_ge (rmax default_params) 1)) by exact max1. cbn [determine bind].
  rewrite ReadEq.read_data_S. cbn [tin tq]. rewrite read_string_escape by exact Hb. reflexivity.
Qed.

Lemma hex_strings_conform w k : ~ In 62 w -> match w with c :: _ => c <> 60 | [] => True end ->
  parse default_params (60 :: w ++ 62 :: k) = Ok (Some (OStr true (hex_meaning w)), mk_tst [] k).
Proof. intros. apply parse_hex_string; auto; [exact buf20|exact max1]. Qed.

Lemma hex_strings_round_trip x k : bytes_ok x ->
  parse default_params (write_string true x ++ k) = Ok (Some (OStr true x), mk_tst [] k).
Proof.
  intro Hb. unfold write_string. rewrite <- !app_assoc. cbn [app].
  assert (N : forall y, bytes_ok y -> Forall (fun c => c <> 60 /\ c <> 62) (flat_map hex_byte y)).
  { induction y as [|c y IH]; intro Hy; [constructor|]. inversion Hy; subst. cbn [flat_map]. apply Forall_app. split; [|auto].
    pose proof (byte_check (fun c => forallb (fun x => negb (x =? 60) && negb (x =? 62)) (hex_byte c)) ltac:(vm_compute; reflexivity) c H1) as Q.
    cbv beta in Q. rewrite forallb_forall in Q. apply Forall_forall. intros z Hz. specialize (Q z Hz). lia. }
  rewrite hex_strings_conform.
  - pose proof (read_hex_write x k Hb) as R. rewrite read_hex_meaning in R; [congruence|].
    intro A. specialize (N x Hb). rewrite Forall_forall in N. destruct (N _ A). congruence.
  - intro A. specialize (N x Hb). rewrite Forall_forall in N. destruct (N _ A). congruence.
  - specialize (N x Hb). destruct (flat_map hex_byte x); auto. inversion N; tauto.
Qed.

Lemma objects_round_trip fl o k : flags_ok fl -> wf_obj default_params o -> may_follow default_params o k ->
  (S (inner o) <= 256)%nat ->
  exists t s, write fl o = Ok t /\ parse default_params (t ++ k) = Ok (Some o, s) /\ reads 4095 s k.
Proof.
  intros Hf Hwf Hk Hd. destruct (write_total default_params fl o Hwf) as [t Ht]. exists t.
  destruct (parse_back default_params fl o t k buf20 Hf Hwf Ht Hk Hd) as (s & H1 & H2). exists s. auto.
Qed.

Lemma endobj_stops r : stops (10 :: r). Proof. left. reflexivity. Qed.

Lemma tok_word_sep buf w c r : (0 < length w <= buf)%nat -> Forall (fun c => is_regular c = true) w -> is_ws c = true ->
  tok buf (w ++ c :: r) = Some ((TLit, w), c :: r).
Proof.
  intros H1 H2 H3. apply tok_lit; auto; [destruct w; [cbn in H1; lia|discriminate]|left; exact H3|lia].
Qed.

Lemma endobj_tok buf a c r : (6 <= buf)%nat -> is_ws a = true -> is_ws c = true ->
  tok buf (a :: bs "endobj" ++ c :: r) = Some ((TLit, bs "endobj"), c :: r).
Proof.
  intros Hb Ha Hc. rewrite tok_ws by exact Ha. apply tok_word_sep; auto; [cbn; lia|repeat constructor].
Qed.

Lemma endobj_safe buf a c r : (6 <= buf)%nat -> is_ws a = true -> is_ws c = true -> num_safe buf (a :: bs "endobj" ++ c :: r).
Proof. intros Hb Ha Hc. unfold num_safe. rewrite endobj_tok by auto. vm_compute. exact I. Qed.

Lemma objects_endobj fl o k : flags_ok fl -> wf_obj default_params o -> (S (inner o) <= 256)%nat ->
  exists t s s', write fl o = Ok t /\ parse default_params (t ++ [10] ++ bs "endobj" ++ [10] ++ k) = Ok (Some o, s) /\
    next_token 4095 s = Some ((TLit, bs "endobj"), s') /\ reads 4095 s' (10 :: k).
Proof.
  intros Hf Hwf Hd.
  assert (B6 : (6 <= 4095)%nat) by (apply Nat.leb_le; vm_compute; reflexivity).
  destruct (objects_round_trip fl o (10 :: bs "endobj" ++ 10 :: k) Hf Hwf) as (t & s & H1 & H2 & H3); auto.
  { split; [intros _; apply endobj_stops|]. intros _ _. apply endobj_safe; auto. }
  assert (T : tok 4095 (10 :: bs "endobj" ++ 10 :: k) = Some ((TLit, bs "endobj"), 10 :: k)) by (apply endobj_tok; auto).
  assert (B2 : (2 <= 4095)%nat) by (apply Nat.leb_le; vm_compute; reflexivity).
  destruct (next_reads _ _ _ _ _ _ B2 H3 T) as (s' & Hn & Hs' & _).
  exists t, s, s'. auto.
Qed.

Lemma integers_round_trip fl n k : - 2 ^ 63 <= n < 2 ^ 63 -> stops k -> num_safe 4095 k ->
  exists t s, write fl (ONum n) = Ok t /\ parse default_params (t ++ k) = Ok (Some (ONum n), s) /\ reads 4095 s k.
Proof.
  intros Hn Hk Hs.
  assert (W : int64_ok n = true) by (unfold int64_ok; apply andb_true_iff; split; [apply Z.leb_le|apply Z.ltb_lt]; lia).
  exists (lead fl ++ dec_signed n).
  assert (B : reads_back default_params (ONum n) (lead fl ++ dec_signed n)) by (apply back_num; [exact buf20|exact W]).
  destruct (B k (mk_tst [] ((lead fl ++ dec_signed n) ++ k)) 1%nat (reads_0 _ _) (fun _ => Hk) (fun _ _ => Hs) ltac:(apply Nat.leb_le; vm_compute; reflexivity))
    as (tk & s1 & dt & s2 & s' & F & Hnx & _ & _ & Hdet & Hrd & Hs' & _).
  exists s'. split; [reflexivity|]. split; [|exact Hs'].
  rewrite <- (parse_any_fuel default_params _ (S (3 * length ((lead fl ++ dec_signed n) ++ k) + 3 + F))) by lia.
  unfold read_next. rewrite Hnx, ReadEq.read_variant_S.
  rewrite (proj2 (Nat.ltb_ge (rmax default_params) 1)) by exact max1. rewrite Hdet. cbn [bind]. apply Hrd. lia.
Qed.

Lemma safe_followers c r k : In c [40; 41; 91; 93; 47; 123; 125] -> num_safe 4095 (c :: r) /\ stops (c :: r) /\
  num_safe 4095 (bs " endobj " ++ k) /\ stops (bs " endobj " ++ k).
Proof.
  assert (B6 : (6 <= 4095)%nat) by (apply Nat.leb_le; vm_compute; reflexivity).
  intro H. split; [|split; [|split]].
  - assert (exists ty, token_delim c = Some ty /\ ty <> TLit) as (ty & Hc & Hty)
      by (repeat (destruct H as [<-|H]; [eexists; split; [reflexivity|discriminate]|]); destruct H).
    unfold num_safe. rewrite (tok_delim1 _ _ _ _ Hc). destruct ty; auto; congruence.
  - right. repeat (destruct H as [<-|H]; [repeat split; try reflexivity; lia|]); destruct H.
  - change (num_safe 4095 (32 :: bs "endobj" ++ 32 :: k)). apply endobj_safe; auto.
  - left. reflexivity.
Qed.

Lemma second_number_lost : exists s, parse default_params (bs "1 2") = Ok (Some (ONum 1), s) /\ next_token 4095 s = None.
Proof. eexists. split; vm_compute; reflexivity. Qed.

Lemma noinline_merges : exists t s, write (mk_wf false true) (OArr [ONum 1; ONum 2]) = Ok t /\
  parse default_params t = Ok (Some (OArr [ONum 12]), s).
Proof. exists (bs "[12]"), (mk_tst [] []). split; vm_compute; reflexivity. Qed.

Lemma reals_near fl m d k : Z.abs m < (2 ^ 63 - 1) * 10 ^ Z.of_nat d -> stops k -> num_safe 4095 k ->
  exists t o s, write fl (OReal m d) = Ok t /\ parse default_params (t ++ k) = Ok (Some o, s) /\ reads 4095 s k /\ near_real m d o.
Proof.
  intros Hm Hk Hs. destruct (real_back default_params fl buf27 max1 m d k Hm Hk (fun _ => Hs)) as (o & s & H1 & H2 & H3).
  exists (lead fl ++ real_text m d), o, s. split; [reflexivity|]. rewrite <- app_assoc. auto.
Qed.

Lemma reals_exact fl m d k : (1 <= d <= 6)%nat -> m mod 10 <> 0 -> Z.abs m < 10 ^ 4000 -> stops k ->
  exists t s, write fl (OReal m d) = Ok t /\ parse default_params (t ++ k) = Ok (Some (OReal m d), s) /\ reads 4095 s k.
Proof.
  intros Hd Hm Hb Hk. exists (lead fl ++ real_text m d).
  assert (L : (length (real_text m d) <= rbuf default_params)%nat).
  { rewrite buf_default, real_text_ftext. set (u := micro m d). assert (Hu : 0 <= u) by apply micro_nonneg.
    assert (L1 : (length (dec (u / 10 ^ 6)) <= 4001)%nat).
    { assert (E4001 : Z.of_nat 4001 = 4001) by (vm_compute; reflexivity).
      apply dec_len; [|apply Nat.leb_le; vm_compute; reflexivity]. rewrite E4001. split; [apply Z.div_pos; lia|].
      apply Z.div_lt_upper_bound; [lia|]. subst u. rewrite micro_canon by lia.
      assert (10 ^ Z.of_nat (6 - d) <= 10 ^ 6) by (apply Z.pow_le_mono_r; lia).
      assert (0 < 10 ^ Z.of_nat (6 - d)) by (apply Z.pow_pos_nonneg; lia).
      change 4001 with (4000 + 1). rewrite (Z.pow_add_r 10 4000 1) by lia.
      set (T := 10 ^ 4000) in *. clearbody T. nia. }
    assert (B : (4001 + 8 <= 4095)%nat) by (apply Nat.leb_le; vm_compute; reflexivity).
    generalize dependent 4095%nat. intro N. generalize dependent 4001%nat. intros N1 L1 B.
    destruct (ftext_spec (m <? 0) u Hu) as [(_ & E)|(j & f & Hj & _ & _ & _ & E)]; rewrite E, !app_length.
    - destruct (m <? 0); cbn [length]; lia.
    - rewrite fixed_digits_len. destruct (m <? 0); cbn [length]; lia. }
  assert (B : reads_back default_params (OReal m d) (lead fl ++ real_text m d))
    by (apply back_real; [exact buf20|split; auto|exact L]).
  destruct (B k (mk_tst [] ((lead fl ++ real_text m d) ++ k)) 1%nat (reads_0 _ _) (fun _ => Hk) ltac:(intros []) ltac:(apply Nat.leb_le; vm_compute; reflexivity))
    as (tk & s1 & dt & s2 & s' & F & Hnx & _ & _ & Hdet & Hrd & Hs' & _).
  exists s'. split; [reflexivity|]. split; [|exact Hs'].
  rewrite <- (parse_any_fuel default_params _ (S (3 * length ((lead fl ++ real_text m d) ++ k) + 3 + F))) by lia.
  unfold read_next. rewrite Hnx, ReadEq.read_variant_S.
  rewrite (proj2 (Nat.ltb_ge (rmax default_params) 1)) by exact max1. rewrite Hdet. cbn [bind]. apply Hrd. lia.
Qed.

Lemma reals_refuted :
  (exists t s, write (mk_wf false false) (OReal 10 1) = Ok t /\ parse default_params (t ++ [32]) = Ok (Some (ONum 1), s)) /\
  (exists t, write (mk_wf false false) (OReal (10 ^ 21) 1) = Ok t /\ parse default_params (t ++ [32]) = Err ENoNumber).
Proof.
  split; [exists (bs " 1"), (mk_tst [] [32])|exists (bs " 100000000000000000000")]; split; vm_compute; reflexivity.
Qed.

Lemma parsing_terminates P inp : (exists r, parse P inp = Ok r) \/ (exists e, parse P inp = Err e).
Proof.
  pose proof (parse_nofuel P inp). pose proof (parse_noub P inp). destruct (parse P inp); try congruence; eauto.
Qed.

(** Nested dictionaries *)
Fixpoint nest_dict (n : nat) : obj := match n with O => ODict [] | S n => ODict [(bs "K", nest_dict n)] end.
Lemma nest_dict_wf n : wf_obj default_params (nest_dict n).
Proof.
  induction n as [|n IH]; [split; [constructor|exact I]|]. cbn [nest_dict wf_obj]. split; [repeat constructor|].
  split; [|exact I]. split; [|exact IH].
  split; [apply bytes_okb_iff; reflexivity|]. split; [intros [A|[]]; discriminate|].
  intros t Ht. vm_compute in Ht. apply ok_inj in Ht. subst t. apply Nat.leb_le. vm_compute. reflexivity.
Qed.
Lemma nest_dict_inner n : (inner (nest_dict n) <= 1)%nat.
Proof. induction n as [|n IH]; cbn [nest_dict inner]; lia. Qed.
Lemma nest_dict_depth n : nesting (nest_dict n) = S n.
Proof. induction n as [|n IH]; [reflexivity|]. cbn [nest_dict nesting]. rewrite IH. lia. Qed.

Lemma dict_nesting_unbounded n : exists inp o s, parse default_params inp = Ok (Some o, s) /\ nesting o = S n.
Proof.
  destruct (objects_round_trip fl0 (nest_dict n) [] fl0_ok (nest_dict_wf n)) as (t & s & _ & H & _).
  - split; [destruct n; intros []|destruct n; intros []].
  - pose proof (nest_dict_inner n). assert ((2 <= 256)%nat) by (apply Nat.leb_le; reflexivity). lia.
  - exists (t ++ []), (nest_dict n), s. split; [exact H|apply nest_dict_depth].
Qed.

Lemma name_ok_b n : bytes_okb n && negb (existsb (Z.eqb 0) n) && (match escape_name n with Ok t => (length t <=? 4095)%nat | _ => false end) = true -> name_ok 4095 n.
Proof.
  intro H. apply andb_true_iff in H. destruct H as [H H3]. apply andb_true_iff in H. destruct H as [H1 H2].
  split; [apply bytes_okb_iff; exact H1|]. split.
  - intro A. apply negb_true_iff in H2. assert (existsb (Z.eqb 0) n = true); [|congruence].
    apply existsb_exists. exists 0. auto.
  - intros t Ht. rewrite Ht in H3. apply Nat.leb_le. exact H3.
Qed.

Definition name_okb (n : list Z) : bool :=
  bytes_okb n && negb (existsb (Z.eqb 0) n) && (match escape_name n with Ok t => (length t <=? 4095)%nat | _ => false end).
Fixpoint sortedb (d : list (list Z * obj)) : bool :=
  match d with
  | [] => true
  | (k, _) :: r => forallb (fun p => bytes_lt k (fst p)) r && sortedb r
  end.
Fixpoint wf_objb (o : obj) : bool :=
  match o with
  | ONull | OBool _ => true
  | ONum n => int64_ok n
  | OReal m k => ((1 <=? k)%nat && (k <=? 6)%nat && negb (m mod 10 =? 0)) && (length (real_text m k) <=? 4095)%nat
  | OName n => name_okb n
  | OStr _ s => bytes_okb s
  | ORef n g => (0 <=? n) && (n <? 2 ^ 32) && ((0 <=? g) && (g <? 2 ^ 16))
  | OArr l => (fix all l := match l with [] => true | x :: r => wf_objb x && all r end) l
  | ODict d => sortedb d && (fix all d := match d with [] => true | (k, v) :: r => name_okb k && wf_objb v && all r end) d
  end.

Lemma sortedb_ok d : sortedb d = true -> sorted d.
Proof.
  induction d as [|[k v] d IH]; intro H; [constructor|]. cbn [sortedb] in H. apply andb_true_iff in H. destruct H as [H1 H2].
  constructor; [apply IH; exact H2|]. rewrite forallb_forall in H1. apply Forall_forall. intros p Hp. apply H1. exact Hp.
Qed.

Lemma wf_objb_ok o : wf_objb o = true -> wf_obj default_params o.
Proof.
  induction o as [|b|n|m k0|n|h x|n g|l IH|d IH] using obj_ind2; intro H; cbn [wf_obj wf_objb] in *; auto.
  - apply andb_true_iff in H. destruct H as [H H2]. apply andb_true_iff in H. destruct H as [H H1].
    apply andb_true_iff in H. destruct H as [H0 H]. apply Nat.leb_le in H, H0, H2. apply negb_true_iff, Z.eqb_neq in H1.
    repeat split; auto.
  - apply name_ok_b. exact H.
  - apply bytes_okb_iff. exact H.
  - repeat (apply andb_true_iff in H; destruct H as [H ?]). 
    apply andb_true_iff in H0. destruct H0 as [H0 ?]. apply Z.leb_le in H, H0. apply Z.ltb_lt in H1, H2. repeat split; auto.
  - induction IH as [|o l Ho _ IH']; [exact I|]. apply andb_true_iff in H. destruct H as [H H1]. split; [apply Ho; exact H|apply IH'; exact H1].
  - apply andb_true_iff in H. destruct H as [Hs H]. split; [apply sortedb_ok; exact Hs|]. clear Hs.
    induction IH as [|[k v] d Ho _ IH']; [exact I|]. apply andb_true_iff in H. destruct H as [H H2].
    apply andb_true_iff in H. destruct H as [H H1]. split; [split; [apply name_ok_b; exact H|apply Ho; exact H1]|apply IH'; exact H2].
Qed.

Definition sample_obj : obj :=
  ODict [(bs "A", OArr [ONum 1; ONum 2; ORef 3 0; ONum (-4); OArr []; ONull; OBool true; OReal (-125) 2; OName []; OName (bs "x")]);
         (bs "Contents", OStr true [1; 255]); (bs "D", ODict [(bs "K", ONum 7)]); (bs "S", OStr false (bs "(a\")); (bs "Type", OName (bs "T"))].
Lemma C05_sample_wf : wf_obj default_params sample_obj /\ (S (inner sample_obj) <= 256)%nat.
Proof. split; [apply wf_objb_ok; vm_compute; reflexivity|apply Nat.leb_le; vm_compute; reflexivity]. Qed.
