(** Writing an object and reading it back. *)
From Coq Require Import String Sorting.Sorted Permutation.
From Verif Require Import Base TokModel ReadEq WriteModel DictProofs TokProofs LexProofs RealProofs ObjSpec.
Local Open Scope Z_scope.

(** Induction over nested objects *)
Section ObjInd.
Variable Q : obj -> Prop.
Hypothesis Hnull : Q ONull.
Hypothesis Hbool : forall b, Q (OBool b).
Hypothesis Hnum : forall n, Q (ONum n).
Hypothesis Hreal : forall m k, Q (OReal m k).
Hypothesis Hname : forall n, Q (OName n).
Hypothesis Hstr : forall h s, Q (OStr h s).
Hypothesis Href : forall n g, Q (ORef n g).
Hypothesis Harr : forall l, Forall Q l -> Q (OArr l).
Hypothesis Hdict : forall d, Forall (fun p => Q (snd p)) d -> Q (ODict d).
Fixpoint obj_ind2 (o : obj) : Q o :=
  match o with
  | ONull => Hnull
  | OBool b => Hbool b
  | ONum n => Hnum n
  | OReal m k => Hreal m k
  | OName n => Hname n
  | OStr h s => Hstr h s
  | ORef n g => Href n g
  | OArr l => Harr l ((fix go l := match l return Forall Q l with [] => Forall_nil _ | x :: r => Forall_cons _ (obj_ind2 x) (go r) end) l)
  | ODict d => Hdict d ((fix go d := match d return Forall (fun p => Q (snd p)) d with
                                     | [] => Forall_nil _ | (k, v) :: r => Forall_cons (k, v) (obj_ind2 v) (go r) end) d)
  end.
End ObjInd.

Definition arr_sep (fl : wflags) (count : Z) : list Z := if wclean fl then [if count mod 10 =? 0 then 10 else 32] else [].
Fixpoint arr_text (fl : wflags) (count : Z) (l : list obj) : res (list Z) :=
  match l with
  | [] => Ok []
  | v :: r => do a <- write fl v; do b <- arr_text fl (count + 1) r; Ok (a ++ arr_sep fl count ++ b)
  end.

Lemma write_arr fl l : write fl (OArr l) =
  do x <- arr_text fl 1 l; Ok ((if wclean fl then [91; 32] else [91]) ++ x ++ [93]).
Proof.
  cbn [write]. f_equal.
  match goal with |- ?f 1 l = _ => enough (E : forall c, f c l = arr_text fl c l) by apply E end.
  induction l as [|o l IH]; intro c; [reflexivity|].
  cbn [arr_text]. destruct (write fl o); cbn [bind]; auto. rewrite IH. reflexivity.
Qed.

Definition sp (fl : wflags) : list Z := if wclean fl then [32] else [].
Definition nl (fl : wflags) : list Z := if wclean fl then [10] else [].
Fixpoint pairs_text (fl : wflags) (d : list (list Z * obj)) : res (list Z) :=
  match d with
  | [] => Ok []
  | (k, v) :: r => do n <- write_name k; do a <- write fl v; do b <- pairs_text fl r; Ok (n ++ sp fl ++ a ++ nl fl ++ b)
  end.

Definition is_type (p : list Z * obj) : bool := beq (fst p) (bs "Type").
Definition type_first (d : list (list Z * obj)) : list (list Z * obj) :=
  filter is_type d ++ filter (fun p => negb (is_type p)) d.

Lemma pairs_text_app fl a : forall b, pairs_text fl (a ++ b) =
  do x <- pairs_text fl a; do y <- pairs_text fl b; Ok (x ++ y).
Proof.
  induction a as [|[k v] a IH]; intro b; cbn [app pairs_text bind].
  - destruct (pairs_text fl b); reflexivity.
  - destruct (write_name k); cbn [bind]; auto. destruct (write fl v); cbn [bind]; auto.
    rewrite IH. destruct (pairs_text fl a); cbn [bind]; auto. destruct (pairs_text fl b); cbn [bind]; auto.
    rewrite <- !app_assoc. reflexivity.
Qed.

Lemma write_dict fl d t : sorted d -> write fl (ODict d) = Ok t ->
  exists x, pairs_text fl (type_first d) = Ok x /\ t = (if wclean fl then [60; 60; 10] else [60; 60]) ++ x ++ [62; 62].
Proof.
  intros Hs H. cbn [write] in H.
  match type of H with bind ?A _ = _ => set (TY := A) in H end.
  assert (ET : TY = pairs_text fl (filter is_type d)).
  { subst TY. apply sorted_nodup in Hs. clear H. induction d as [|[k v] d IH]; [reflexivity|].
    cbn [filter]. unfold is_type at 1. cbn [fst]. cbn [map fst] in Hs. inversion Hs; subst.
    destruct (beq k (bs "Type")) eqn:E.
    - assert (F : filter is_type d = []).
      { destruct (filter is_type d) as [|[k' v'] r] eqn:F; auto. exfalso.
        assert (Hi : In (k', v') (filter is_type d)) by (rewrite F; left; reflexivity).
        apply filter_In in Hi. destruct Hi as [Hi1 Hi2]. unfold is_type in Hi2. cbn in Hi2. apply beq_eq in Hi2. subst k'.
        apply beq_eq in E. subst k. apply H1. apply in_map_iff. exists (bs "Type", v'). auto. }
      rewrite F. cbn [pairs_text]. apply beq_eq in E. subst k.
      change (write_name (bs "Type")) with (Ok (bs "/Type")). cbn [bind].
      destruct (write fl v); cbn [bind]; auto. rewrite app_nil_r. reflexivity.
    - apply IH; auto. }
  rewrite ET in H. clear ET TY.
  match type of H with bind _ (fun ty => bind ?A _) = _ => set (REST := A) in H end.
  assert (ER : REST = pairs_text fl (filter (fun p => negb (is_type p)) d)).
  { subst REST. clear H Hs. induction d as [|[k v] d IH]; [reflexivity|].
    cbn [filter]. unfold is_type at 1. cbn [fst]. destruct (beq k (bs "Type")) eqn:E; cbn [negb]; auto.
    cbn [pairs_text]. destruct (write_name k); cbn [bind]; auto. destruct (write fl v); cbn [bind]; auto.
    rewrite IH. reflexivity. }
  rewrite ER in H. unfold type_first. rewrite pairs_text_app.
  destruct (pairs_text fl (filter is_type d)) as [x| | |]; cbn [bind] in *; try discriminate.
  destruct (pairs_text fl (filter (fun p => negb (is_type p)) d)) as [y| | |]; cbn [bind] in *; try discriminate.
  exists (x ++ y). split; auto. inversion H. rewrite <- !app_assoc. reflexivity.
Qed.

Lemma type_first_in d p : In p (type_first d) <-> In p d.
Proof.
  unfold type_first. rewrite in_app_iff, !filter_In. destruct (is_type p); cbn; intuition congruence.
Qed.

Lemma type_first_nodup d : NoDup (map fst d) -> NoDup (map fst (type_first d)).
Proof.
  intro H. apply (Permutation_NoDup (l := map fst d)); auto. apply Permutation_map.
  clear H. unfold type_first. induction d as [|p d IH]; [constructor|]. cbn [filter].
  destruct (is_type p); cbn [negb app].
  - constructor. exact IH.
  - eapply perm_trans; [apply perm_skip; exact IH|]. apply Permutation_middle.
Qed.

(** * First tokens of written text *)
Definition first_ok (buf : nat) (k : list Z) : Prop :=
  exists ty t r, tok buf k = Some ((ty, t), r) /\ ~ (ty = TLit /\ t = [82]).

Section RT.
Variable P : rparams.
Variable fl : wflags.
Hypothesis Hbuf : (20 <= rbuf P)%nat.
Hypothesis Hfl : flags_ok fl.
Notation buf := (rbuf P).

Lemma tok_lead t : tok buf (lead fl ++ t) = tok buf t.
Proof. unfold lead. destruct (wnoinline fl); [reflexivity|]. apply tok_ws. reflexivity. Qed.

Lemma reads_tok_eq s a b : reads buf s a -> tok buf a = tok buf b -> tq s <> [] \/ a = b -> reads buf s b.
Proof.
  intros H E HD. inversion H; subst.
  - destruct HD as [HD|HD]; [cbn in HD; congruence|]. subst. constructor.
  - apply reads_1. congruence.
  - eapply reads_2; [|eassumption]. congruence.
Qed.

(** The object [o] with text [t] is read back from any state standing for [t ++ k]. *)
Definition reads_back (o : obj) (t : list Z) : Prop :=
  forall k s D, reads buf s (t ++ k) -> (needs_stop o -> stops k) ->
    (needs_safe o -> rrefs P = true -> num_safe buf k) ->
    (D + inner o <= rmax P)%nat ->
    exists tk s1 dt s2 s' F,
      next_token buf s = Some (tk, s1) /\ fst tk <> TRSq /\ fst tk <> TDRAng /\
      determine buf (rrefs P) tk s1 = Ok (dt, s2) /\
      (forall fuel, (F <= fuel)%nat -> read_data P fuel D dt s2 = Ok (Some o, s')) /\
      reads buf s' k /\
      (dt = DHex -> exists x, o = OStr true x /\ read_hex (tin s2) = (x, tin s') /\ tq s' = tq s2).

Lemma buf2 : (2 <= buf)%nat. Proof. lia. Qed.

(** A value finished by [determine] *)
Lemma back_val o t x :
  (forall k, stops k -> tok buf (t ++ k) = Some ((TLit, x), k)) ->
  (forall k s, reads buf s k -> (length (tq s) <= 1)%nat -> (needs_safe o -> rrefs P = true -> num_safe buf k) ->
     exists s2, determine buf (rrefs P) (TLit, x) s = Ok (DVal o, s2) /\ reads buf s2 k) ->
  needs_stop o -> reads_back o t.
Proof.
  intros Ht Hd Hns k s D Hs Hst Hsafe Hdep. specialize (Hst Hns).
  destruct (next_reads _ _ _ _ _ _ buf2 Hs (Ht k Hst)) as (s1 & Hn & Hs1 & [_ Hq] & _).
  destruct (Hd k s1 Hs1 Hq Hsafe) as (s2 & Hd2 & Hs2).
  exists (TLit, x), s1, (DVal o), s2, s2, 1%nat.
  split; [exact Hn|]. split; [discriminate|]. split; [discriminate|]. split; [exact Hd2|].
  split; [intros fuel Hf; destruct fuel; [lia|]; reflexivity|].
  split; [exact Hs2|discriminate].
Qed.

Lemma bs_regular_lit x k : x <> [] -> forallb is_regular x = true -> (length x <= 20)%nat -> stops k ->
  tok buf ((lead fl ++ x) ++ k) = Some ((TLit, x), k).
Proof.
  intros Hx Hr Hl Hk. rewrite <- app_assoc, tok_lead. apply tok_lit; auto; [|lia].
  apply Forall_forall. intros c Hc. rewrite forallb_forall in Hr. auto.
Qed.

Lemma back_null : reads_back ONull (lead fl ++ bs "null").
Proof.
  eapply back_val with (x := bs "null"); [intros; apply bs_regular_lit; auto; [discriminate|vm_compute; lia] | | exact I].
  intros k s Hs _ _. exists s. split; auto.
Qed.

Lemma back_bool b : reads_back (OBool b) (lead fl ++ (if b then bs "true" else bs "false")).
Proof.
  eapply back_val with (x := if b then bs "true" else bs "false"); [| |exact I].
  - intros; apply bs_regular_lit; auto; destruct b; try discriminate; try reflexivity; vm_compute; lia.
  - intros k s Hs _ _. exists s. split; auto. destruct b; reflexivity.
Qed.

Lemma determine_num z s : int64_ok z = true ->
  determine buf (rrefs P) (TLit, dec_signed z) s = Ok (determine_number buf (rrefs P) z s).
Proof.
  intro Hz. unfold determine.
  destruct (number_not_keyword _ (dec_signed_head z)) as (-> & -> & ->).
  rewrite dec_signed_kind, from_chars_dec; auto.
Qed.

Lemma back_num n : int64_ok n = true -> reads_back (ONum n) (lead fl ++ dec_signed n).
Proof.
  intro Hn. destruct (dec_signed_regular n) as [Hr Hne]. pose proof (dec_signed_len n Hn) as Hl.
  eapply back_val with (x := dec_signed n); [| |exact I].
  - intros k Hk. rewrite <- app_assoc, tok_lead. apply tok_lit; auto. lia.
  - intros k s Hs Hq Hsafe. rewrite determine_num by auto.
    destruct (rrefs P) eqn:ER.
    + destruct (determine_number_safe buf true n s k buf2 Hs (Hsafe I eq_refl) Hq) as (s2 & -> & Hs2). eauto.
    + exists s. split; auto.
Qed.

Lemma back_real m k : canon_real m k -> (length (real_text m k) <= buf)%nat -> reads_back (OReal m k) (lead fl ++ real_text m k).
Proof.
  intros Hc Hl. destruct (canon_real_read m k Hc) as [H1 H2].
  destruct (real_text_regular (m <? 0) (micro m k) (micro_nonneg m k)) as (R1 & R2 & R3).
  rewrite <- real_text_ftext in R1, R2, R3.
  eapply back_val with (x := real_text m k); [| |exact I].
  - intros k' Hk. rewrite <- app_assoc, tok_lead. apply tok_lit; auto.
  - intros k' s Hs _ _. exists s. split; auto. unfold determine.
    destruct (number_not_keyword _ R3) as (-> & -> & ->). rewrite H1, H2. reflexivity.
Qed.

Lemma stops_sp c k : c = 32 \/ c = 10 -> stops (c :: k).
Proof. intros [->| ->]; left; reflexivity. Qed.

Lemma dec_num_nonneg n : 0 <= n -> dec_signed n = dec n.
Proof. intro H. unfold dec_signed. rewrite (proj2 (Z.ltb_ge n 0)) by lia. reflexivity. Qed.

Lemma back_ref n g : 0 <= n < 2 ^ 32 -> 0 <= g < 2 ^ 16 -> rrefs P = true -> reads_back (ORef n g) (write_ref fl n g).
Proof.
  intros Hn Hg HR k s D Hs Hst _ Hdep. specialize (Hst I).
  assert (In_ : int64_ok n = true) by (unfold int64_ok; apply andb_true_iff; split; [apply Z.leb_le|apply Z.ltb_lt]; lia).
  assert (Ig : int64_ok g = true) by (unfold int64_ok; apply andb_true_iff; split; [apply Z.leb_le|apply Z.ltb_lt]; lia).
  destruct (dec_signed_regular n) as [Hr Hne]. pose proof (dec_signed_len n In_) as Hl.
  destruct (dec_signed_regular g) as [Gr Gne]. pose proof (dec_signed_len g Ig) as Gl.
  rewrite dec_num_nonneg in Hr, Hne, Hl by lia. rewrite dec_num_nonneg in Gr, Gne, Gl by lia.
  unfold write_ref in Hs. rewrite <- !app_assoc in Hs. cbn [app] in Hs.
  assert (T1 : tok buf (lead fl ++ dec n ++ 32 :: dec g ++ 32 :: 82 :: k) = Some ((TLit, dec n), 32 :: dec g ++ 32 :: 82 :: k)).
  { rewrite tok_lead. apply tok_lit; auto; [apply stops_sp; auto|lia]. }
  assert (T2 : tok buf (32 :: dec g ++ 32 :: 82 :: k) = Some ((TLit, dec g), 32 :: 82 :: k)).
  { rewrite tok_ws by reflexivity. apply tok_lit; auto; [apply stops_sp; auto|lia]. }
  assert (T3 : tok buf (32 :: 82 :: k) = Some ((TLit, [82]), k)).
  { rewrite tok_ws by reflexivity. apply (tok_lit buf [82]); auto; [discriminate|cbn; lia]. }
  destruct (next_reads _ _ _ _ _ _ buf2 Hs T1) as (s1 & Hnx & Hs1 & [_ Hq] & _).
  exists (TLit, dec n), s1, (DVal (ORef n g)), (mk_tst [] k), (mk_tst [] k), 1%nat.
  split; [exact Hnx|]. split; [discriminate|]. split; [discriminate|]. split.
  { rewrite <- (dec_num_nonneg n) by lia. rewrite determine_num by auto.
    rewrite HR. erewrite (determine_number_ref buf n g s1); [|exact buf2|exact Hs1|exact Hq|exact T2| |exact T3].
    - unfold u32, u16. rewrite !Z.mod_small by lia. reflexivity.
    - rewrite <- (dec_num_nonneg g) by lia. apply from_chars_dec; auto. }
  split; [intros fuel Hf; destruct fuel; [lia|]; reflexivity|].
  split; [constructor|discriminate].
Qed.

(** A delimiter that stops a literal starts a token that is not a literal. *)
Lemma tok_delim_nonlit c r : is_delim c = true -> c <> 37 -> (r = [] -> c <> 60 /\ c <> 62) ->
  exists ty t r', tok buf (c :: r) = Some ((ty, t), r') /\ ty <> TLit.
Proof.
  intros Hc H37 Hr.
  assert (HD : (c = 60 \/ c = 62) \/ exists ty, token_delim c = Some ty /\ ty <> TLit).
  { unfold is_delim in Hc.
    repeat (apply orb_true_iff in Hc; destruct Hc as [Hc|Hc]); apply Z.eqb_eq in Hc; subst c;
      try (left; auto; fail); try congruence;
      right; eexists; (split; [reflexivity|discriminate]). }
  destruct HD as [HD|(ty & H1 & H2)].
  - assert (E : tok buf (c :: r) = match r with
       | [] => Some ((TLit, [c]), [])
       | d :: r' => if d =? c then Some ((if c =? 60 then TDLAng else TDRAng, [c; d]), r')
                    else Some ((if c =? 60 then TLAng else TRAng, [c]), r) end).
    { destruct HD; subst c; reflexivity. }
    rewrite E. destruct r as [|d r']; [destruct HD as [HD|HD]; specialize (Hr eq_refl); lia|].
    destruct (d =? c); destruct (c =? 60); do 3 eexists; (split; [reflexivity|discriminate]).
  - rewrite (tok_delim1 _ _ _ _ H1). eauto.
Qed.

Lemma read_name_back n t k : bytes_ok n -> escape_name n = Ok t -> (length t <= buf)%nat -> stops k ->
  exists s', read_name buf (mk_tst [] (t ++ k)) = (n, s') /\ reads buf s' k.
Proof.
  intros Hb He Hl Hk. destruct (escape_unescape n t Hb He) as [Hr Hu].
  unfold read_name. cbn [tin]. destruct t as [|c t].
  - cbn in Hu. subst n. cbn [app]. destruct k as [|c k].
    + eexists; split; [reflexivity|constructor].
    + destruct Hk as [Hk|(Hk & Hn & He')].
      * rewrite Hk. eexists; split; [reflexivity|constructor].
      * destruct (is_ws c) eqn:Ew; [apply is_ws_delim in Ew; congruence|].
        destruct (tok_delim_nonlit c k Hk Hn He') as (ty & x & r & Ht & Hty).
        unfold next_token. cbn [tq tin]. rewrite Ht.
        destruct ty; try congruence; (eexists; split; [reflexivity|]; unfold enqueue; cbn [tq tin app]; eapply reads_1; exact Ht).
  - cbn [app]. assert (Hc : is_regular c = true) by (inversion Hr; tauto).
    destruct (regular_spec _ Hc) as [Hw _]. rewrite Hw.
    unfold next_token. cbn [tq tin].
    change (c :: t ++ k) with ((c :: t) ++ k). rewrite tok_lit; auto; [|discriminate|].
    + cbn match. rewrite Hu. eexists; split; [reflexivity|constructor].
    + eapply Forall_impl; [|exact Hr]. cbn; tauto.
Qed.

Lemma back_name n t : name_ok buf n -> write_name n = Ok t -> reads_back (OName n) t.
Proof.
  intros (Hb & Hz & Hl) Hw k s D Hs Hst _ Hdep. specialize (Hst I).
  unfold write_name in Hw. destruct (escape_name n) as [e| | |] eqn:He; try discriminate. cbn [bind] in Hw.
  apply ok_inj in Hw; subst t. cbn [app] in Hs.
  assert (T : tok buf (47 :: e ++ k) = Some ((TSlash, [47]), e ++ k)) by (apply tok_delim1; reflexivity).
  destruct (next_reads _ _ _ _ _ _ buf2 Hs T) as (s1 & Hn & _ & _ & Hq).
  rewrite (Hq ltac:(discriminate)) in Hn.
  destruct (read_name_back n e k Hb He (Hl _ eq_refl) Hst) as (s' & Hrn & Hs').
  exists (TSlash, [47]), (mk_tst [] (e ++ k)), DName, (mk_tst [] (e ++ k)), s', 1%nat.
  split; [exact Hn|]. split; [discriminate|]. split; [discriminate|]. split; [reflexivity|].
  split; [intros fuel Hf; destruct fuel; [lia|]; rewrite read_data_S; rewrite Hrn; reflexivity|].
  split; [exact Hs'|discriminate].
Qed.

Lemma back_str h x : bytes_ok x -> reads_back (OStr h x) (write_string h x).
Proof.
  intros Hb k s D Hs _ _ Hdep. unfold write_string in Hs. destruct h.
  - rewrite <- !app_assoc in Hs. cbn [app] in Hs.
    assert (T : tok buf (60 :: flat_map hex_byte x ++ 62 :: k) = Some ((TLAng, [60]), flat_map hex_byte x ++ 62 :: k)).
    { unfold tok. cbn [tok_from]. change (is_ws 60) with false. cbn match. change (60 =? 37) with false. cbn match.
      change ((60 =? 60) || (60 =? 62)) with true. cbn match.
      destruct x as [|c x]; cbn [flat_map app]; [reflexivity|].
      inversion Hb; subst. unfold hex_byte at 1. cbn [app].
      assert ((hex_digit (c / 16) =? 60) = false) as ->; [|reflexivity].
      pose proof (byte_check (fun c => negb (hex_digit (c / 16) =? 60)) ltac:(vm_compute; reflexivity) c H1) as Q.
      cbv beta in Q. apply negb_true_iff in Q. exact Q. }
    destruct (next_reads _ _ _ _ _ _ buf2 Hs T) as (s1 & Hn & _ & _ & Hq).
    rewrite (Hq ltac:(discriminate)) in Hn.
    exists (TLAng, [60]), (mk_tst [] (flat_map hex_byte x ++ 62 :: k)), DHex, (mk_tst [] (flat_map hex_byte x ++ 62 :: k)), (mk_tst [] k), 1%nat.
    split; [exact Hn|]. split; [discriminate|]. split; [discriminate|]. split; [reflexivity|].
    split; [intros fuel Hf; destruct fuel; [lia|]; rewrite read_data_S; cbn [tin tq]; rewrite read_hex_write by auto; reflexivity|].
    split; [constructor|]. intros _. exists x. cbn [tin tq]. rewrite read_hex_write by auto. auto.
  - rewrite <- !app_assoc in Hs. cbn [app] in Hs.
    assert (T : tok buf (40 :: escape_string x ++ 41 :: k) = Some ((TLParen, [40]), escape_string x ++ 41 :: k))
      by (apply tok_delim1; reflexivity).
    destruct (next_reads _ _ _ _ _ _ buf2 Hs T) as (s1 & Hn & _ & _ & Hq).
    rewrite (Hq ltac:(discriminate)) in Hn.
    exists (TLParen, [40]), (mk_tst [] (escape_string x ++ 41 :: k)), DStr, (mk_tst [] (escape_string x ++ 41 :: k)), (mk_tst [] k), 1%nat.
    split; [exact Hn|]. split; [discriminate|]. split; [discriminate|]. split; [reflexivity|].
    split; [intros fuel Hf; destruct fuel; [lia|]; rewrite read_data_S; cbn [tin tq]; rewrite read_string_escape by auto; reflexivity|].
    split; [constructor|discriminate].
Qed.

(** * How written text begins *)
(** kind of the first token of an object's text *)
Lemma tok_text o t k : wf_obj P o -> write fl o = Ok t -> (needs_stop o -> stops k) ->
  exists ty x r, tok buf (t ++ k) = Some ((ty, x), r) /\ ~ (ty = TLit /\ x = [82]) /\
    (ty = TLit -> rrefs P = true -> from_chars_int x <> None -> first_ok buf k -> first_ok buf r).
Proof.
  intros Hwf Hw Hst. destruct o as [|b|n|m k0|n|h x|n g|l|d]; cbn [write wf_obj needs_stop] in *.
  - apply ok_inj in Hw; subst t. rewrite bs_regular_lit; auto; [|discriminate|vm_compute; lia].
    do 3 eexists. split; [reflexivity|]. split; [intros [_ A]; discriminate|]. auto.
  - apply ok_inj in Hw; subst t. rewrite (bs_regular_lit (if b then bs "true" else bs "false") k); cycle 1.
    { destruct b; discriminate. } { destruct b; reflexivity. } { destruct b; vm_compute; lia. } { apply Hst. exact I. }
    do 3 eexists. split; [reflexivity|]. split; [intros [_ A]; destruct b; discriminate|]. auto.
  - apply ok_inj in Hw; subst t. destruct (dec_signed_regular n) as [Hr Hne]. pose proof (dec_signed_len n Hwf) as Hl.
    rewrite <- app_assoc, tok_lead. rewrite tok_lit; auto; [|lia].
    do 3 eexists. split; [reflexivity|]. split; [|auto].
    intros [_ A]. pose proof (dec_signed_kind n) as B. rewrite A in B. discriminate.
  - apply ok_inj in Hw; subst t. destruct Hwf as [Hc Hl]. destruct (canon_real_read m k0 Hc) as [H1 H2].
    destruct (real_text_regular (m <? 0) (micro m k0) (micro_nonneg m k0)) as (R1 & R2 & R3).
    rewrite <- real_text_ftext in R1, R2, R3.
    rewrite <- app_assoc, tok_lead. rewrite tok_lit; auto.
    do 3 eexists. split; [reflexivity|]. split; [|auto].
    intros [_ A]. rewrite A in H1. discriminate.
  - unfold write_name in Hw. destruct (escape_name n); try discriminate. cbn [bind] in Hw. apply ok_inj in Hw; subst t. cbn [app].
    rewrite (tok_delim1 _ 47 TSlash) by reflexivity. do 3 eexists. split; [reflexivity|].
    split; [intros [A _]; discriminate|discriminate].
  - apply ok_inj in Hw; subst t.
    assert (G : write_string h x ++ k = write_string h x ++ k) by auto.
    destruct h; unfold write_string; rewrite <- !app_assoc; cbn [app].
    + unfold tok. cbn [tok_from]. change (is_ws 60) with false. cbn match. change (60 =? 37) with false. cbn match.
      change ((60 =? 60) || (60 =? 62)) with true. cbn match.
      destruct (flat_map hex_byte x ++ 62 :: k) as [|d r] eqn:E; [destruct (flat_map hex_byte x); discriminate|].
      destruct (d =? 60); do 3 eexists; (split; [reflexivity|]; split; [intros [A _]; discriminate|discriminate]).
    + rewrite (tok_delim1 _ 40 TLParen) by reflexivity. do 3 eexists. split; [reflexivity|].
      split; [intros [A _]; discriminate|discriminate].
  - apply ok_inj in Hw; subst t. destruct Hwf as (Hn & Hg & HR).
    assert (In_ : int64_ok n = true) by (unfold int64_ok; apply andb_true_iff; split; [apply Z.leb_le|apply Z.ltb_lt]; lia).
    assert (Ig : int64_ok g = true) by (unfold int64_ok; apply andb_true_iff; split; [apply Z.leb_le|apply Z.ltb_lt]; lia).
    destruct (dec_signed_regular n) as [Hr Hne]. pose proof (dec_signed_len n In_) as Hl.
    destruct (dec_signed_regular g) as [Gr Gne]. pose proof (dec_signed_len g Ig) as Gl.
    pose proof (dec_signed_kind n) as Kn. pose proof (dec_signed_kind g) as Kg.
    rewrite dec_num_nonneg in Hr, Hne, Hl, Kn by lia. rewrite dec_num_nonneg in Gr, Gne, Gl, Kg by lia.
    unfold write_ref. rewrite <- !app_assoc. cbn [app].
    rewrite tok_lead. rewrite tok_lit; auto; [|apply stops_sp; auto|lia].
    do 3 eexists. split; [reflexivity|]. split; [intros [_ A]; rewrite A in Kn; discriminate|].
    intros _ _ _ _. exists TLit, (dec g), (32 :: 82 :: k). split.
    + rewrite tok_ws by reflexivity. apply tok_lit; auto; [apply stops_sp; auto|lia].
    + intros [_ A]. rewrite A in Kg. discriminate.
  - change (write fl (OArr l) = Ok t) in Hw. rewrite write_arr in Hw.
    destruct (arr_text fl 1 l) as [x| | |] eqn:E; cbn [bind] in Hw; try discriminate.
    apply ok_inj in Hw; subst t.
    assert (exists y, ((if wclean fl then [91; 32] else [91]) ++ x ++ [93]) ++ k = 91 :: y) as [y ->]
      by (destruct (wclean fl); cbn [app]; eauto).
    rewrite (tok_delim1 _ 91 TLSq) by reflexivity. do 3 eexists. split; [reflexivity|].
    split; [intros [A _]; discriminate|discriminate].
  - destruct (write_dict fl d t) as (x & _ & ->); [tauto|exact Hw|].
    assert (exists y, ((if wclean fl then [60; 60; 10] else [60; 60]) ++ x ++ [62; 62]) ++ k = 60 :: 60 :: y) as [y ->]
      by (destruct (wclean fl); cbn [app]; eauto).
    exists TDLAng, [60; 60], y. split; [reflexivity|]. split; [intros [A _]; discriminate|discriminate].
Qed.

(** In the compact layout every object's text begins with a separator. *)
Lemma stops_text o t k : wf_obj P o -> write fl o = Ok t -> wnoinline fl = false -> stops (t ++ k).
Proof.
  intros Hwf Hw Hf. 
  destruct o as [|b|n|m k0|n|h x|n g|l|d]; cbn [write wf_obj] in *;
    try (apply ok_inj in Hw; subst t; unfold write_ref, lead; rewrite Hf; left; reflexivity).
  - unfold write_name in Hw. destruct (escape_name n); try discriminate. cbn [bind] in Hw. apply ok_inj in Hw; subst t.
    right. cbn. repeat split; lia.
  - apply ok_inj in Hw; subst t. unfold write_string. destruct h.
    + right. repeat split; try lia; intro A; destruct (flat_map hex_byte x); discriminate.
    + right. repeat split; lia.
  - change (write fl (OArr l) = Ok t) in Hw. rewrite write_arr in Hw.
    destruct (arr_text fl 1 l) as [x| | |] eqn:E; cbn [bind] in Hw; try discriminate.
    apply ok_inj in Hw; subst t. destruct (wclean fl); cbn [app]; right; repeat split; lia.
  - destruct (write_dict fl d t) as (x & _ & ->); [tauto|exact Hw|].
    destruct (wclean fl); cbn [app]; right; repeat split; try lia; intro A; discriminate.
Qed.

Lemma stops_after ws o t k : (ws <> [] -> exists c, ws = [c] /\ is_ws c = true) ->
  (wclean fl = false -> ws = []) -> (wclean fl = true -> ws <> []) ->
  wf_obj P o -> write fl o = Ok t -> stops (ws ++ t ++ k).
Proof.
  intros H1 H2 H3 Hwf Hw. destruct (wclean fl) eqn:E.
  - destruct (H1 (H3 eq_refl)) as (c & -> & Hc). left. exact Hc.
  - rewrite (H2 eq_refl). cbn [app]. eapply stops_text; eauto.
    destruct Hfl as [A|A]; [congruence|exact A].
Qed.

(** * Arrays *)
Lemma arr_sep_ws c : arr_sep fl c = [] \/ exists x, arr_sep fl c = [x] /\ is_ws x = true.
Proof.
  unfold arr_sep. destruct (wclean fl); auto. right. destruct (c mod 10 =? 0); eexists; split; reflexivity.
Qed.

Lemma tok_sep c k : tok buf (arr_sep fl c ++ k) = tok buf k.
Proof.
  destruct (arr_sep_ws c) as [->|(x & -> & Hx)]; [reflexivity|]. cbn [app]. apply tok_ws. exact Hx.
Qed.

Definition wf_list (l : list obj) : Prop := Forall (wf_obj P) l.

(** first token after an array's separator: an element or the closing bracket *)
Lemma arr_first l : forall c x k, wf_list l -> arr_text fl c l = Ok x -> first_ok buf (x ++ 93 :: k) /\
  stops (arr_sep fl (c - 1) ++ x ++ 93 :: k).
Proof.
  induction l as [|o l IH]; intros c x k Hwf Hx; cbn [arr_text] in Hx.
  - inversion Hx; subst. cbn [app]. split.
    + exists TRSq, [93], k. split; [apply tok_delim1; reflexivity|]. intros [A _]; discriminate.
    + destruct (arr_sep_ws (c - 1)) as [->|(y & -> & Hy)]; cbn [app].
      * right. repeat split; lia.
      * left. exact Hy.
  - inversion Hwf; subst. destruct (write fl o) as [a| | |] eqn:Ha; try discriminate. cbn [bind] in Hx.
    destruct (arr_text fl (c + 1) l) as [b| | |] eqn:Hb; try discriminate. cbn [bind] in Hx. inversion Hx; subst.
    destruct (IH (c + 1) b k H2 Hb) as [IH1 IH2]. replace (c + 1 - 1) with c in IH2 by lia.
    rewrite <- !app_assoc. split.
    + destruct (tok_text o a (arr_sep fl c ++ b ++ 93 :: k) H1 Ha (fun _ => IH2)) as (ty & y & r & Ht & Hn & _).
      exists ty, y, r. auto.
    + unfold arr_sep in *. apply (stops_after _ o a); auto; destruct (wclean fl); try discriminate; auto;
        try (intros A; congruence); intros _; destruct ((c - 1) mod 10 =? 0); eexists; split; reflexivity.
Qed.

Lemma num_safe_arr l : forall c x k, wf_list l -> arr_text fl c l = Ok x -> rrefs P = true ->
  num_safe buf (arr_sep fl (c - 1) ++ x ++ 93 :: k).
Proof.
  intros c x k Hwf Hx HR. unfold num_safe. rewrite tok_sep. destruct l as [|o l]; cbn [arr_text] in Hx.
  - inversion Hx; subst. cbn [app]. rewrite (tok_delim1 _ 93 TRSq) by reflexivity. exact I.
  - inversion Hwf; subst. destruct (write fl o) as [a| | |] eqn:Ha; try discriminate. cbn [bind] in Hx.
    destruct (arr_text fl (c + 1) l) as [b| | |] eqn:Hb; try discriminate. cbn [bind] in Hx. inversion Hx; subst.
    destruct (arr_first l (c + 1) b k H2 Hb) as [F1 F2]. replace (c + 1 - 1) with c in F2 by lia.
    rewrite <- !app_assoc.
    destruct (tok_text o a (arr_sep fl c ++ b ++ 93 :: k) H1 Ha (fun _ => F2)) as (ty & y & r & Ht & Hn & Hr).
    rewrite Ht. destruct ty; auto. destruct (from_chars_int y) eqn:Ey; auto.
    assert (F : first_ok buf r).
    { apply Hr; auto; [congruence|]. destruct F1 as (a1 & a2 & a3 & A1 & A2).
      exists a1, a2, a3. rewrite tok_sep. auto. }
    destruct F as (a1 & a2 & a3 & A1 & A2). rewrite A1. exact A2.
Qed.

Lemma back_array l : Forall (fun o => wf_obj P o -> forall t, write fl o = Ok t -> reads_back o t) l ->
  forall c x acc D k s, wf_list l -> arr_text fl c l = Ok x -> reads buf s (x ++ 93 :: k) ->
  (Forall (fun o => D + S (inner o) <= rmax P)%nat l) ->
  exists F s', (forall fuel, (F <= fuel)%nat -> read_array P fuel D acc s = Ok (acc ++ l, s')) /\ s' = mk_tst [] k.
Proof.
  induction 1 as [|o l Ho _ IH]; intros c x acc D k s Hwf Hx Hs HD; cbn [arr_text] in Hx.
  - inversion Hx; subst. cbn [app] in Hs.
    destruct (next_reads _ _ _ _ _ _ buf2 Hs (tok_delim1 _ 93 TRSq k eq_refl)) as (s1 & Hn & _ & _ & Hq).
    exists 1%nat, (mk_tst [] k). split; auto. intros fuel Hf. destruct fuel; [lia|]. rewrite read_array_S.
    rewrite Hn, (Hq ltac:(discriminate)), app_nil_r. reflexivity.
  - inversion Hwf; subst. inversion HD; subst.
    destruct (write fl o) as [a| | |] eqn:Ha; try discriminate. cbn [bind] in Hx.
    destruct (arr_text fl (c + 1) l) as [b| | |] eqn:Hb; try discriminate. cbn [bind] in Hx. inversion Hx; subst.
    rewrite <- !app_assoc in Hs.
    destruct (arr_first l (c + 1) b k H2 Hb) as [F1 F2]. replace (c + 1 - 1) with c in F2 by lia.
    destruct (Ho H1 a eq_refl (arr_sep fl c ++ b ++ 93 :: k) s (S D) Hs (fun _ => F2)) as
      (tk & s1 & dt & s2 & s3 & F & Hn & Hsq & Hda & Hdet & Hrd & Hs3 & _).
    { intros _ HR. pose proof (num_safe_arr l (c + 1) b k H2 Hb HR) as G. replace (c + 1 - 1) with c in G by lia. exact G. }
    { lia. }
    assert (exists s4 F2, reads buf s4 (b ++ 93 :: k) /\
       (forall fuel, (F2 <= fuel)%nat -> read_array P fuel D (acc ++ [o]) s3 = read_array P fuel D (acc ++ [o]) s4)) as (s4 & F2' & Hs4 & Heq).
    { destruct (arr_sep_ws c) as [E|(y & E & Hy)]; rewrite E in Hs3; cbn [app] in Hs3.
      - exists s3, 0%nat. split; auto.
      - inversion Hs3; subst.
        + exists (mk_tst [] (b ++ 93 :: k)), 0%nat. split; [constructor|]. intros fuel _.
          destruct fuel; [reflexivity|]. rewrite read_array_S. unfold next_token. cbn [tq tin]. rewrite tok_ws by exact Hy. reflexivity.
        + exists (mk_tst [t] r), 0%nat. split; [|reflexivity]. eapply reads_1. rewrite <- H. symmetry. apply tok_ws. exact Hy.
        + exists (mk_tst [(TLit, x); t2] r2), 0%nat. split; [|reflexivity]. eapply reads_2; [|eassumption]. rewrite <- H. symmetry. apply tok_ws. exact Hy. }
    destruct (IH (c + 1) b (acc ++ [o]) D k s4 H2 Hb Hs4 H4) as (F3 & s5 & Hra & Hs5).
    exists (S (S (F + F2' + F3))), s5. split; auto. intros fuel Hf. destruct fuel as [|fuel]; [lia|].
    rewrite read_array_S. rewrite Hn. destruct tk as [ty x]. cbn [fst] in Hsq.
    assert (RV : read_variant P fuel D (ty, x) s1 = Ok (Some o, s3)).
    { destruct fuel as [|fuel]; [lia|]. rewrite read_variant_S.
      rewrite (proj2 (Nat.ltb_ge (rmax P) (S D))) by lia. rewrite Hdet. cbn [bind]. apply Hrd. lia. }
    assert (E2 : read_array P fuel D (acc ++ [o]) s3 = Ok (acc ++ o :: l, s5)).
    { rewrite Heq by lia. rewrite Hra by lia. rewrite <- app_assoc. reflexivity. }
    destruct ty; try congruence; rewrite RV; cbn [bind]; exact E2.
Qed.

(** * Dictionaries *)
Definition dstep (st : list (list Z * obj) * option (list Z)) (p : list Z * obj) :=
  match beq (fst p) (bs "Contents"), snd p with
  | true, OStr true x => (fst st, Some x)
  | _, _ => (dict_add (fst p) (snd p) (fst st), snd st)
  end.
Definition dfinish (st : list (list Z * obj) * option (list Z)) : list (list Z * obj) :=
  match snd st with
  | None => fst st
  | Some x => dict_add (bs "Contents") (OStr true x) (fst st)
  end.

Definition wf_pairs (d : list (list Z * obj)) : Prop := Forall (fun p => name_ok buf (fst p) /\ wf_obj P (snd p)) d.

Lemma sp_ws : sp fl = [] \/ exists c, sp fl = [c] /\ is_ws c = true.
Proof. unfold sp. destruct (wclean fl); auto. right. eexists; split; reflexivity. Qed.
Lemma nl_ws : nl fl = [] \/ exists c, nl fl = [c] /\ is_ws c = true.
Proof. unfold nl. destruct (wclean fl); auto. right. eexists; split; reflexivity. Qed.

Lemma pairs_first d x k : pairs_text fl d = Ok x ->
  exists ty t r, tok buf (nl fl ++ x ++ 62 :: 62 :: k) = Some ((ty, t), r) /\ ty <> TLit.
Proof.
  intro Hx. assert (E : tok buf (nl fl ++ x ++ 62 :: 62 :: k) = tok buf (x ++ 62 :: 62 :: k)).
  { destruct nl_ws as [->|(c & -> & Hc)]; [reflexivity|]. apply tok_ws. exact Hc. }
  rewrite E. destruct d as [|[n v] d]; cbn [pairs_text] in Hx.
  - inversion Hx; subst. exists TDRAng, [62; 62], k. split; [reflexivity|discriminate].
  - unfold write_name in Hx. destruct (escape_name n) as [e| | |]; try discriminate. cbn [bind] in Hx.
    destruct (write fl v); try discriminate. cbn [bind] in Hx.
    destruct (pairs_text fl d); try discriminate. cbn [bind] in Hx. inversion Hx; subst. cbn [app].
    do 3 eexists. split; [apply tok_delim1; reflexivity|discriminate].
Qed.

Lemma pairs_stops d x k : pairs_text fl d = Ok x -> stops (nl fl ++ x ++ 62 :: 62 :: k).
Proof.
  intro Hx. destruct nl_ws as [->|(c & -> & Hc)]; [|left; exact Hc]. cbn [app].
  destruct d as [|[n v] d]; cbn [pairs_text] in Hx.
  - inversion Hx; subst. right. cbn [app]. repeat split; try lia; intro A; discriminate.
  - unfold write_name in Hx. destruct (escape_name n) as [e| | |]; try discriminate. cbn [bind] in Hx.
    destruct (write fl v); try discriminate. cbn [bind] in Hx.
    destruct (pairs_text fl d); try discriminate. cbn [bind] in Hx. inversion Hx; subst. cbn [app].
    right. repeat split; lia.
Qed.

(** A white-space character in front does not matter to the next token. *)
Lemma reads_skip s c k : is_ws c = true -> reads buf s (c :: k) ->
  exists s', reads buf s' k /\ next_token buf s = next_token buf s'.
Proof.
  intros Hc Hs. inversion Hs; subst.
  - exists (mk_tst [] k). split; [constructor|]. unfold next_token. cbn [tq tin]. rewrite tok_ws by auto. reflexivity.
  - exists (mk_tst [t] r). split; [|reflexivity]. eapply reads_1. rewrite <- H. symmetry. apply tok_ws. exact Hc.
  - exists (mk_tst [(TLit, x); t2] r2). split; [|reflexivity]. eapply reads_2; [|eassumption]. rewrite <- H. symmetry. apply tok_ws. exact Hc.
Qed.

Lemma reads_skip_opt ws s k : (ws = [] \/ exists c, ws = [c] /\ is_ws c = true) -> reads buf s (ws ++ k) ->
  exists s', reads buf s' k /\ next_token buf s = next_token buf s'.
Proof.
  intros [->|(c & -> & Hc)] Hs.
  - exists s. auto.
  - apply reads_skip in Hs; auto.
Qed.

Lemma back_pairs d : Forall (fun p => wf_obj P (snd p) -> forall t, write fl (snd p) = Ok t -> reads_back (snd p) t) d ->
  forall x acc con D k s, wf_pairs d -> pairs_text fl d = Ok x -> reads buf s (x ++ 62 :: 62 :: k) ->
  Forall (fun p => (D + Nat.max 1 (inner (snd p)) <= rmax P)%nat) d ->
  exists F s', (forall fuel, (F <= fuel)%nat ->
      read_dict P fuel D acc con s = Ok (dfinish (fold_left dstep d (acc, con)), s')) /\ s' = mk_tst [] k.
Proof.
  induction 1 as [|[key v] d Ho _ IH]; intros x acc con D k s Hwf Hx Hs HD; cbn [pairs_text] in Hx.
  - inversion Hx; subst. cbn [app] in Hs.
    assert (T : tok buf (62 :: 62 :: k) = Some ((TDRAng, [62; 62]), k)) by reflexivity.
    destruct (next_reads _ _ _ _ _ _ buf2 Hs T) as (s1 & Hn & _ & _ & Hq).
    exists 1%nat, (mk_tst [] k). split; auto. intros fuel Hf. destruct fuel; [lia|]. rewrite read_dict_S.
    rewrite Hn, (Hq ltac:(discriminate)). cbn [fold_left]. unfold dfinish. cbn [fst snd]. reflexivity.
  - inversion Hwf as [|? ? [Hk Hv] Hwf']; subst. inversion HD as [|? ? HD1 HD2]; subst. cbn [fst snd] in *.
    destruct (write_name key) as [n| | |] eqn:Hnm; try discriminate. cbn [bind] in Hx.
    destruct (write fl v) as [a| | |] eqn:Ha; try discriminate. cbn [bind] in Hx.
    destruct (pairs_text fl d) as [b| | |] eqn:Hb; try discriminate. cbn [bind] in Hx. inversion Hx; subst.
    rewrite <- !app_assoc in Hs.
    (* the key *)
    assert (K := back_name key n Hk Hnm).
    assert (SK : stops (sp fl ++ a ++ nl fl ++ b ++ 62 :: 62 :: k)).
    { apply (stops_after _ v a); auto; unfold sp; destruct (wclean fl); try discriminate; auto;
        try (intros A; congruence); intros _; eexists; split; reflexivity. }
    destruct (K _ s (S D) Hs (fun _ => SK) ltac:(intros []) ltac:(cbn [inner]; lia)) as
      (tk & s1 & dt & s2 & s3 & F & Hn & Hsq & Hda & Hdet & Hrd & Hs3 & _).
    destruct (reads_skip_opt _ _ _ sp_ws Hs3) as (s3' & Hs3' & Hn3).
    (* the value *)
    assert (SV : stops (nl fl ++ b ++ 62 :: 62 :: k)) by (eapply pairs_stops; eauto).
    assert (NV : num_safe buf (nl fl ++ b ++ 62 :: 62 :: k)).
    { destruct (pairs_first d b k Hb) as (ty & t & r & Ht & Hty). unfold num_safe. rewrite Ht. destruct ty; auto; congruence. }
    destruct (Ho Hv a eq_refl _ s3' D Hs3' (fun _ => SV) (fun _ _ => NV) ltac:(lia)) as
      (tk' & s4 & dt' & s5 & s6 & F' & Hn' & Hsq' & Hda' & Hdet' & Hrd' & Hs6 & Hhex).
    destruct (reads_skip_opt _ _ _ nl_ws Hs6) as (s6' & Hs6' & Hn6).
    set (st := dstep (acc, con) (key, v)).
    destruct (IH b (fst st) (snd st) D k s6' Hwf' eq_refl Hs6' HD2) as (F3 & s7 & Hra & Hs7).
    exists (S (S (F + F' + F3 + 1))), s7. split; auto. intros fuel Hf. destruct fuel as [|fuel]; [lia|].
    rewrite read_dict_S. rewrite Hn. destruct tk as [ty y]. cbn [fst] in Hda.
    assert (RV : read_variant P fuel D (ty, y) s1 = Ok (Some (OName key), s3)).
    { destruct fuel as [|fuel]; [lia|]. rewrite read_variant_S.
      rewrite (proj2 (Nat.ltb_ge (rmax P) (S D))) by lia. rewrite Hdet. cbn [bind]. apply Hrd. lia. }
    assert (RD : forall con' acc', (fst st, snd st) = (acc', con') -> read_dict P fuel D acc' con' s6 = Ok (dfinish (fold_left dstep d (acc', con')), s7)).
    { intros con' acc' E. inversion E; subst acc' con'.
      rewrite <- (Hra fuel) by lia. destruct fuel as [|fuel]; [lia|]. rewrite read_dict_S. rewrite Hn6. reflexivity. }
    assert (GOAL : match (beq key (bs "Contents")), dt' with
          | true, DHex => let '(x0, k0) := read_hex (tin s5) in read_dict P fuel D acc (Some x0) (mk_tst (tq s5) k0)
          | _, _ => do (v', s5') <- read_data P fuel D dt' s5;
             match v' with None => Err EInvalidDataType | Some o => read_dict P fuel D (dict_add key o acc) con s5' end
          end = Ok (dfinish (fold_left dstep d (dstep (acc, con) (key, v))), s7)).
    { assert (STD : (dstep (acc, con) (key, v) = (dict_add key v acc, con)) ->
         (do (v', s5') <- read_data P fuel D dt' s5;
             match v' with None => Err EInvalidDataType | Some o => read_dict P fuel D (dict_add key o acc) con s5' end)
         = Ok (dfinish (fold_left dstep d (dstep (acc, con) (key, v))), s7)).
      { intro E. rewrite Hrd' by lia. cbn [bind]. rewrite E. apply RD. subst st. rewrite E. reflexivity. }
      destruct (beq key (bs "Contents")) eqn:EK.
      - assert (DEC : dt' = DHex \/ dt' <> DHex) by (destruct dt'; auto; right; discriminate).
        destruct DEC as [EH|NH].
        + subst dt'. destruct (Hhex eq_refl) as (z & Ez & Hrx & Htq). rewrite Hrx. rewrite <- Htq.
          subst v.
          assert (ED : dstep (acc, con) (key, OStr true z) = (acc, Some z)) by (unfold dstep; cbn [fst snd]; rewrite EK; reflexivity).
          rewrite ED. destruct s6 as [q6 t6]. cbn [tq tin] in *. apply RD. subst st. rewrite ED. reflexivity.
        + assert (NS : forall z, v <> OStr true z).
          { intros z ->. cbn [write] in Ha. apply ok_inj in Ha; subst a.
            (* the token of a hex string is an opening bracket, so the kind is DHex *)
            apply NH. clear - Hs3' Hn' Hdet' Hv Hbuf. unfold write_string in Hs3'. rewrite <- !app_assoc in Hs3'. cbn [app] in Hs3'.
            assert (T : tok buf (60 :: flat_map hex_byte z ++ 62 :: nl fl ++ b ++ 62 :: 62 :: k) = Some ((TLAng, [60]), flat_map hex_byte z ++ 62 :: nl fl ++ b ++ 62 :: 62 :: k)).
            { unfold tok. cbn [tok_from]. change (is_ws 60) with false. cbn match. change (60 =? 37) with false. cbn match.
              change ((60 =? 60) || (60 =? 62)) with true. cbn match.
              destruct z as [|c z]; cbn [flat_map app]; [reflexivity|].
              cbn [wf_obj] in Hv. inversion Hv; subst. unfold hex_byte at 1. cbn [app].
              assert ((hex_digit (c / 16) =? 60) = false) as ->; [|reflexivity].
              pose proof (byte_check (fun c => negb (hex_digit (c / 16) =? 60)) ltac:(vm_compute; reflexivity) c H1) as Q.
              cbv beta in Q. apply negb_true_iff in Q. exact Q. }
            destruct (next_reads _ _ _ _ _ _ buf2 Hs3' T) as (s9 & Hn9 & _).
            rewrite Hn9 in Hn'. inversion Hn'; subst. cbn in Hdet'. congruence. }
          assert (STEQ : dstep (acc, con) (key, v) = (dict_add key v acc, con)).
          { unfold dstep. cbn [fst snd]. rewrite EK. destruct v as [| | | | |h z| | |]; try reflexivity. destruct h; [exfalso; eapply NS; reflexivity|reflexivity]. }
          destruct dt'; try congruence; apply STD; exact STEQ.
      - apply STD. unfold dstep. cbn [fst snd]. rewrite EK. reflexivity. }
    cbn [fold_left].
    destruct ty; try congruence; rewrite RV; cbn [bind]; rewrite Hn3, Hn'; destruct tk' as [ty' y']; rewrite Hdet'; exact GOAL.
Qed.

Lemma dstep_sorted d : forall st, sorted (fst st) -> sorted (fst (fold_left dstep d st)).
Proof.
  induction d as [|[k v] d IH]; intros st Hs; [exact Hs|]. cbn [fold_left]. apply IH.
  unfold dstep. cbn [fst snd]. destruct (beq k (bs "Contents")); [|apply dict_add_sorted; auto].
  destruct v as [| | | | |h z| | |]; try (apply dict_add_sorted; auto). destruct h; [exact Hs|apply dict_add_sorted; auto].
Qed.

Lemma dfinish_get st q : sorted (fst st) -> dict_get q (dfinish st) =
  match snd st with
  | Some x => if beq q (bs "Contents") then Some (OStr true x) else dict_get q (fst st)
  | None => dict_get q (fst st)
  end.
Proof. intro Hs. unfold dfinish. destruct (snd st); auto. apply dict_get_add. exact Hs. Qed.

Lemma dfold_get d : forall st, NoDup (map fst d) -> sorted (fst st) ->
  (In (bs "Contents") (map fst d) -> snd st = None) ->
  forall q, dict_get q (dfinish (fold_left dstep d st)) =
     match dict_get q d with Some v => Some v | None => dict_get q (dfinish st) end.
Proof.
  induction d as [|[k v] d IH]; intros st Hn Hs Hc q; [reflexivity|].
  cbn [fold_left map fst] in *. inversion Hn; subst.
  assert (Hs' : sorted (fst (dstep st (k, v)))) by (apply (dstep_sorted [(k, v)] st Hs)).
  rewrite IH; auto.
  - cbn [dict_get]. destruct (beq q k) eqn:E.
    + apply beq_eq in E. subst q. 
      assert (Hd : dict_get k d = None).
      { destruct (dict_get k d) as [w|] eqn:G; auto. apply dict_get_in in G; auto. exfalso. apply H1. apply in_map_iff. exists (k, w). auto. }
      rewrite Hd. rewrite dfinish_get by auto. unfold dstep. cbn [fst snd].
      destruct (beq k (bs "Contents")) eqn:EC.
      * assert (Hnone : snd st = None) by (apply Hc; left; apply beq_eq; auto).
        destruct v as [| | | | |h z| | |]; cbn [fst snd]; try (rewrite Hnone, dict_get_add, beq_refl by auto; reflexivity).
        destruct h; cbn [fst snd]; [reflexivity|rewrite Hnone, dict_get_add, beq_refl by auto; reflexivity].
      * cbn [fst snd]. rewrite dict_get_add, beq_refl by auto. destruct (snd st); reflexivity.
    + destruct (dict_get q d) as [w|]; auto. rewrite !dfinish_get by auto. unfold dstep. cbn [fst snd].
      destruct (beq k (bs "Contents")) eqn:EC.
      * assert (Hnone : snd st = None) by (apply Hc; left; apply beq_eq; auto).
        apply beq_eq in EC. subst k.
        destruct v as [| | | | |h z| | |]; cbn [fst snd]; try (rewrite Hnone, dict_get_add, E by auto; reflexivity).
        destruct h; cbn [fst snd]; [rewrite E, Hnone; reflexivity|rewrite Hnone, dict_get_add, E by auto; reflexivity].
      * cbn [fst snd]. rewrite dict_get_add, E by auto. reflexivity.
  - intro Hi. unfold dstep. cbn [fst snd]. destruct (beq k (bs "Contents")) eqn:EC.
    + apply beq_eq in EC. subst k. contradiction.
    + cbn [snd]. apply Hc. right. exact Hi.
Qed.

Lemma dfold_sorted_eq d : sorted d -> dfinish (fold_left dstep (type_first d) ([], None)) = d.
Proof.
  intro Hs. pose proof (sorted_nodup d Hs) as Hn. pose proof (type_first_nodup d Hn) as Hn'.
  apply dict_ext; auto.
  - set (st := fold_left dstep (type_first d) ([], None)).
    assert (sorted (fst st)) by (apply dstep_sorted; constructor).
    unfold dfinish. destruct (snd st); auto. apply dict_add_sorted; auto.
  - intro q. rewrite dfold_get; auto; [|constructor].
    rewrite (dict_get_perm q (type_first d) d); auto; [|intro p; apply type_first_in].
    destruct (dict_get q d); reflexivity.
Qed.

Lemma wf_arr_iff l : wf_obj P (OArr l) <-> wf_list l.
Proof.
  unfold wf_list. cbn [wf_obj]. induction l as [|o l IH]; [split; constructor|].
  rewrite IH. split; [intros []; constructor; auto|intro H; inversion H; auto].
Qed.
Lemma wf_dict_iff d : wf_obj P (ODict d) <-> sorted d /\ wf_pairs d.
Proof.
  unfold wf_pairs. cbn [wf_obj].
  assert (forall d, (fix all d := match d with [] => True | (k, v) :: r => (name_ok buf k /\ wf_obj P v) /\ all r end) d
     <-> Forall (fun p => name_ok buf (fst p) /\ wf_obj P (snd p)) d) as ->; [|tauto].
  clear d. induction d as [|[k v] d IH]; [split; constructor|].
  rewrite IH. split; [intros []; constructor; auto|intro H; inversion H; auto].
Qed.
Lemma inner_arr l D m : (D + inner (OArr l) <= m)%nat -> Forall (fun o => D + S (inner o) <= m)%nat l.
Proof.
  cbn [inner]. induction l as [|o l IH]; intro H; constructor; [|apply IH]; lia.
Qed.
Lemma inner_dict d D m : (D + inner (ODict d) <= m)%nat -> Forall (fun p => D + Nat.max 1 (inner (snd p)) <= m)%nat d.
Proof.
  cbn [inner]. induction d as [|[k v] d IH]; intro H; constructor; [cbn [snd]|apply IH]; lia.
Qed.

Theorem write_reads_back o : wf_obj P o -> forall t, write fl o = Ok t -> reads_back o t.
Proof.
  induction o as [|b|n|m k0|n|h x|n g|l IH|d IH] using obj_ind2; intros Hwf t Hw.
  - apply ok_inj in Hw; subst t. apply back_null.
  - apply ok_inj in Hw; subst t. apply back_bool.
  - apply ok_inj in Hw; subst t. apply back_num. exact Hwf.
  - apply ok_inj in Hw; subst t. destruct Hwf. apply back_real; auto.
  - apply back_name; auto.
  - apply ok_inj in Hw; subst t. apply back_str. exact Hwf.
  - apply ok_inj in Hw; subst t. destruct Hwf as (A & B & C). apply back_ref; auto.
  - rewrite wf_arr_iff in Hwf. rewrite write_arr in Hw.
    destruct (arr_text fl 1 l) as [x| | |] eqn:E; cbn [bind] in Hw; try discriminate. apply ok_inj in Hw; subst t.
    intros k s D Hs _ _ HD.
    assert (exists ws, (ws = [] \/ exists c, ws = [c] /\ is_ws c = true) /\
      ((if wclean fl then [91; 32] else [91]) ++ x ++ [93]) ++ k = 91 :: ws ++ x ++ 93 :: k) as (ws & Hws & Heq).
    { destruct (wclean fl).
      - exists [32]. split; [right; eexists; split; reflexivity|]. cbn [app]. rewrite <- app_assoc. reflexivity.
      - exists []. split; auto. cbn [app]. rewrite <- app_assoc. reflexivity. }
    rewrite Heq in Hs.
    destruct (next_reads _ _ _ _ _ _ buf2 Hs (tok_delim1 _ 91 TLSq _ eq_refl)) as (s1 & Hn & Hs1 & _ & Hq).
    specialize (Hq ltac:(discriminate)).
    destruct (reads_skip_opt _ _ _ Hws Hs1) as (s1' & Hs1' & Hn1).
    destruct (back_array l IH 1 x [] D k s1' Hwf E Hs1' (inner_arr _ _ _ HD)) as (F & s' & HF & Hs').
    exists (TLSq, [91]), s1, DArr, s1, s', (S (S F)).
    split; [exact Hn|]. split; [discriminate|]. split; [discriminate|]. split; [reflexivity|].
    split.
    { intros fuel Hf. destruct fuel as [|fuel]; [lia|]. rewrite read_data_S.
      assert (read_array P fuel D [] s1 = read_array P fuel D [] s1') as ->.
      { destruct fuel; [reflexivity|]. rewrite read_array_S. rewrite Hn1. reflexivity. }
      rewrite HF by lia. reflexivity. }
    split; [rewrite Hs'; constructor|discriminate].
  - pose proof Hwf as Hwf0. rewrite wf_dict_iff in Hwf. destruct Hwf as [Hsrt Hwp].
    destruct (write_dict fl d t Hsrt Hw) as (x & Hx & ->).
    intros k s D Hs _ _ HD.
    assert (exists ws, (ws = [] \/ exists c, ws = [c] /\ is_ws c = true) /\
      ((if wclean fl then [60; 60; 10] else [60; 60]) ++ x ++ [62; 62]) ++ k = 60 :: 60 :: ws ++ x ++ 62 :: 62 :: k) as (ws & Hws & Heq).
    { destruct (wclean fl).
      - exists [10]. split; [right; eexists; split; reflexivity|]. cbn [app]. rewrite <- app_assoc. reflexivity.
      - exists []. split; auto. cbn [app]. rewrite <- app_assoc. reflexivity. }
    rewrite Heq in Hs.
    assert (T : tok buf (60 :: 60 :: ws ++ x ++ 62 :: 62 :: k) = Some ((TDLAng, [60; 60]), ws ++ x ++ 62 :: 62 :: k)) by reflexivity.
    destruct (next_reads _ _ _ _ _ _ buf2 Hs T) as (s1 & Hn & Hs1 & _ & Hq).
    destruct (reads_skip_opt _ _ _ Hws Hs1) as (s1' & Hs1' & Hn1).
    assert (IH' : Forall (fun p => wf_obj P (snd p) -> forall t, write fl (snd p) = Ok t -> reads_back (snd p) t) (type_first d)).
    { apply Forall_forall. intros p Hp. rewrite Forall_forall in IH. apply IH. apply type_first_in. exact Hp. }
    assert (Hwp' : wf_pairs (type_first d)).
    { apply Forall_forall. intros p Hp. unfold wf_pairs in Hwp. rewrite Forall_forall in Hwp. apply Hwp. apply type_first_in. exact Hp. }
    assert (HD' : Forall (fun p => (D + Nat.max 1 (inner (snd p)) <= rmax P)%nat) (type_first d)).
    { apply Forall_forall. intros p Hp. pose proof (inner_dict _ _ _ HD) as A. rewrite Forall_forall in A. apply A. apply type_first_in. exact Hp. }
    destruct (back_pairs (type_first d) IH' x [] None D k s1' Hwp' Hx Hs1' HD') as (F & s' & HF & Hs').
    exists (TDLAng, [60; 60]), s1, DDict, s1, s', (S (S F)).
    split; [exact Hn|]. split; [discriminate|]. split; [discriminate|]. split; [reflexivity|].
    split.
    { intros fuel Hf. destruct fuel as [|fuel]; [lia|]. rewrite read_data_S.
      assert (read_dict P fuel D [] None s1 = read_dict P fuel D [] None s1') as ->.
      { destruct fuel; [reflexivity|]. rewrite read_dict_S. rewrite Hn1. reflexivity. }
      rewrite HF by lia. rewrite dfold_sorted_eq by exact Hsrt. reflexivity. }
    split; [rewrite Hs'; constructor|discriminate].
Qed.
End RT.
