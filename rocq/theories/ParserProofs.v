(** Reading chains of cross-reference sections *)
From Coq Require Import String.
From Verif Require Import Base TokModel WriteModel DictProofs TokProofs LexProofs ObjSpec ObjProofs ParseProofs ListModel XrefModel XrefSpec XrefProofs XrefReadProofs XrefPropLemmas XrefStreamProofs ParserModel ParserSpec.
Local Open Scope Z_scope.
Local Notation dict := (list (list Z * obj)) (only parsing).

Lemma wf_obj_levels b r m m' o : wf_obj (mk_rp b r m) o -> wf_obj (mk_rp b r m') o.
Proof.
  induction o as [|x|n|y k|n|h x|n g|l IH|d IH] using obj_ind2; intros W; try exact W.
  - cbn [wf_obj] in *. induction IH as [|o l Ho _ IH']; [exact I|]. destruct W as [W1 W2]. split; [apply Ho; exact W1|apply IH'; exact W2].
  - cbn [wf_obj] in *. destruct W as [S0 W]. split; [exact S0|]. clear S0. induction IH as [|(k, v) d Ho _ IH']; [exact I|].
    destruct W as [[W1 W2] W3]. split; [split; [exact W1|apply Ho; exact W2]|apply IH'; exact W3].
Qed.
Lemma parse_ws P c inp o s : is_ws c = true -> parse P inp = Ok (Some o, s) -> parse P (c :: inp) = Ok (Some o, s).
Proof.
  intros W. rewrite <- (parse_any_fuel P inp (3 * length (c :: inp) + 3)) by (cbn [length]; lia).
  unfold parse, read_next, next_token. cbn [tq tin]. rewrite tok_ws by exact W. destruct (tok (rbuf P) inp) as [[t r]|]; [easy|discriminate].
Qed.
Lemma trailer_read d x fl t k : (S (inner (ODict x)) <= d)%nat -> wf_obj default_params (ODict x) -> flags_ok fl ->
  write fl (ODict x) = Ok t -> read_trailer d ([10] ++ t ++ k) = Ok x.
Proof.
  intros D W F T. pose proof (wf_obj_levels 4095 true 256 d _ W) as W'.
  destruct (parse_back (mk_rp 4095 true d) fl (ODict x) t k) as (s & P & _); auto; [cbn [rbuf]; lia|split; intros []|].
  unfold read_trailer, next_token. cbn [app tq tin]. rewrite tok_ws by easy. rewrite (parse_ws _ 10 _ _ _ eq_refl P).
  destruct (write_dict fl x t (proj1 W) T) as (y & _ & ->).
  assert (K : exists r, tok 4095 (((if wclean fl then [60; 60; 10] else [60; 60]) ++ y ++ [62; 62]) ++ k) = Some ((TDLAng, bs "<<"), r)).
  { destruct (wclean fl); cbn [app]; eexists; reflexivity. }
  destruct K as [r ->]. reflexivity.
Qed.

Lemma find_direct_num d k n : dict_get k d = Some (ONum n) -> find_direct d k = Some (ONum n).
Proof. unfold find_direct. intros ->. reflexivity. Qed.
Lemma find_direct_none d k : dict_get k d = None -> find_direct d k = None.
Proof. unfold find_direct. intros ->. reflexivity. Qed.

(** the state after a section *)
Definition after (E : penv) (x : csec) (st : pst) : pst :=
  mk_pst (coff x :: visited st) (fill_secs (if cstream x then 0 else pmagic E) (csecs x) (ents st))
    (Some match trail st with None => cdict x | Some c => merge_trailer (cdict x) c end) (queue st) (lasteof st) (coff x :: slog st).

Lemma memz_in x l : memz x l = true <-> In x l.
Proof. unfold memz. rewrite existsb_exists. split; [intros (y & I & E); replace x with y by lia; exact I|intros I; exists x; split; [exact I|lia]]. Qed.
Lemma memz_out x l : memz x l = false <-> ~ In x l.
Proof. rewrite <- memz_in. destruct (memz x l); intuition congruence. Qed.

Lemma locate_in E off st : 0 <= off <= Z.of_nat (length (pfile E)) -> locate E off st = (Ok off, queue st).
Proof. intros H. unfold locate. replace (_ <? off) with false by lia. reflexivity. Qed.

Lemma table_text_tok secs k : exists s, next_token 4095 (mk_tst [] (table_text secs ++ k)) = Some ((TLit, bs "xref"), s).
Proof.
  unfold table_text, next_token. cbn [tq tin]. rewrite <- !app_assoc.
  rewrite tok_lit with (t := bs "xref"); [eexists; reflexivity|easy|repeat constructor|left; easy|cbn; lia].
Qed.

Lemma table_step E x st d : present E x -> cstream x = false -> queue st = [] -> ~ In (coff x) (visited st) ->
  0 <= pmagic E -> (cneed x <= d)%nat ->
  run E (S (S d)) (JTable (coff x)) st =
    match find_direct (cdict x) (bs "Prev") with
    | Some (ONum n) =>
      if (0 <? n) && negb (memz n (visited (after E x st))) then
        match run E d (JTable n) (after E x st) with (Err ENoTrailer, st3) => (Ok tt, st3) | r => r end
      else (Ok tt, after E x st)
    | _ => (Ok tt, after E x st)
    end.
Proof.
  intros (O1 & W & WO & PR) CS Q NV M D. rewrite CS in PR. destruct PR as (LM & LN & NX & fl & t & k & F & T & S0).
  cbn [run]. replace (memz (coff x) (visited st)) with false by (symmetry; apply memz_out; exact NV).
  rewrite locate_in by exact O1. change (queue (visit (coff x) st)) with (queue st). rewrite Q, S0.
  pose proof (read_table_text 4095 (pmagic E) (csecs x) (ents st) ([10] ++ t ++ k) ltac:(lia) M W LM LN ltac:(left; easy)) as R.
  unfold read_table in R. destruct (table_text_tok (csecs x) (bs "trailer" ++ [10] ++ t ++ k)) as [s Hs]. rewrite Hs in R |- *.
  cbn [snd] in R |- *. rewrite beq_refl in R |- *.
  change (ents (visit (coff x) st)) with (ents st). assert (R' : forall (a b : res unit * tst * rents), Some a = Some b -> a = b) by congruence.
  apply R' in R. rewrite R. cbn match. cbn [tq tin].
  unfold is_next, next_token. cbn [queue tq tin with_queue log with_ents]. cbn [snd]. rewrite beq_refl. cbn [tq tin].
  rewrite (trailer_read d (cdict x) fl t k D WO F T).
  unfold has_key. rewrite NX.
  match goal with |- context [take_trailer (cdict x) ?S0] => assert (EQ : take_trailer (cdict x) S0 = after E x st) end.
  { unfold after. rewrite CS. unfold take_trailer. cbn [visited ents trail queue lasteof slog with_queue log with_ents visit]. rewrite Q. reflexivity. }
  rewrite EQ. destruct (find_direct (cdict x) (bs "Prev")) as [[| |n| | | | | |]|]; try reflexivity.
  destruct ((0 <? n) && negb (memz n (visited (after E x st)))); reflexivity.
Qed.

Lemma digit_tok c k : 48 <= c <= 57 -> exists t r, tok 4095 (c :: k) = Some ((TLit, c :: t), r).
Proof.
  intros H. unfold tok. cbn [tok_from].
  assert (B : is_ws c = false /\ (c =? 37) = false /\ ((c =? 60) || (c =? 62)) = false /\ token_delim c = None).
  { unfold is_ws, token_delim. repeat split; try lia. repeat match goal with |- context [c =? ?v] => replace (c =? v) with false by lia end. reflexivity. }
  destruct B as (-> & -> & -> & ->). destruct (lit_rest _ k) as [t r]. eauto.
Qed.

Lemma numbers_map l : numbers (map ONum l) = Some l.
Proof. induction l as [|a l IH]; [easy|]. cbn. rewrite IH. easy. Qed.
Lemma cut_same secs : (forall n e, lists secs n e -> fits_stream e) -> (exists lo, well_formed lo secs) -> map cut_sec secs = secs.
Proof.
  intros F (lo & W). assert (G : forall f c l, In (f, c, l) secs -> forall p, In p l -> cut (snd p) = snd p).
  { intros f c l I p P. apply cut_fits. apply In_nth_error in P. destruct P as [i P].
    assert (P' : nth_error (map snd l) i = Some (snd p)) by (rewrite nth_error_map, P; easy).
    apply (F (f + Z.of_nat i)). exists f, c, l. split; [exact I|]. destruct (wf_section secs lo f c l W I) as (A & B & C).
    assert (i < length (map snd l))%nat by (apply nth_error_Some; congruence). rewrite map_length in *.
    repeat split; try lia. replace (Z.to_nat (f + Z.of_nat i - f)) with i by lia. exact P'. }
  clear F W. induction secs as [|[[f c] l] secs IH]; [easy|]. cbn [map]. rewrite IH.
  - f_equal. unfold cut_sec. cbn [fst snd]. f_equal. rewrite <- (map_id l) at 2. apply map_ext_in.
    intros (n, e) I. specialize (G f c l (or_introl eq_refl) (n, e) I). cbn [fst snd] in *. rewrite G. easy.
  - intros f' c' l' I. apply (G f' c' l'). right. exact I.
Qed.
Lemma stream_step E x st d : present E x -> cstream x = true -> queue st = [] -> ~ In (coff x) (visited st) -> (cneed x <= d)%nat ->
  forall prev, stream_prev (cdict x) = Ok prev ->
  run E (S (S d)) (JTable (coff x)) st =
    match prev with
    | Some p => if p =? coff x then (Ok tt, after E x st)
                else match run E d (JTable p) (after E x st) with (Err ENoNumber, st3) => (Ok tt, st3) | r => r end
    | None => (Ok tt, after E x st)
    end.
Proof.
  intros (O1 & W & WO & PR) CS Q NV D prev P. rewrite CS in PR. destruct PR as (V & (c & k & S0 & DG) & LM & FS & (size & SZ) & WA & IX & ST).
  cbn [run]. replace (memz (coff x) (visited st)) with false by (symmetry; apply memz_out; exact NV).
  rewrite locate_in by exact O1. change (queue (visit (coff x) st)) with (queue st). rewrite Q, S0.
  destruct (digit_tok c k DG) as (t & r & T). unfold next_token. cbn [tq tin]. rewrite T. cbn [snd].
  replace (beq (c :: t) (bs "xref")) with false.
  2:{ symmetry. apply beq_neq. cbn. intros X. injection X as X _. lia. }
  rewrite V. cbn [tq]. rewrite (ST d D), P. unfold stream_table, key_number.
  rewrite (find_direct_num _ _ _ SZ). cbn [bind]. unfold find_direct. rewrite WA, IX. cbn match. rewrite numbers_map.
  rewrite parse_text by assumption. rewrite cut_same by eauto.
  match goal with |- context [with_ents ?e ?s] => assert (EQ : with_ents e s = after E x st) end.
  { unfold after. rewrite CS. unfold take_trailer. cbn [visited ents trail queue lasteof slog with_queue log with_ents visit]. rewrite Q. reflexivity. }
  rewrite EQ. reflexivity.
Qed.

Definition ends (E : penv) (l : list csec) (st : pst) : pst := fold_left (fun s x => after E x s) l st.
Lemma u64_small n : 0 <= n < 2 ^ 64 -> u64 n = n.
Proof. intros H. unfold u64. apply Z.mod_small. exact H. Qed.

Lemma step E x st d : present E x -> queue st = [] -> ~ In (coff x) (visited st) -> 0 <= pmagic E -> (cneed x <= d)%nat ->
  (dict_get (bs "Prev") (cdict x) = None -> run E (S (S d)) (JTable (coff x)) st = (Ok tt, after E x st)) /\
  (forall n st', dict_get (bs "Prev") (cdict x) = Some (ONum n) -> 0 < n < 2 ^ 64 -> n <> coff x -> ~ In n (visited st) ->
     run E d (JTable n) (after E x st) = (Ok tt, st') -> run E (S (S d)) (JTable (coff x)) st = (Ok tt, st')) /\
  (forall n, dict_get (bs "Prev") (cdict x) = Some (ONum n) -> cstream x = false -> In n (coff x :: visited st) ->
     run E (S (S d)) (JTable (coff x)) st = (Ok tt, after E x st)).
Proof.
  intros P Q NV M D. destruct (cstream x) eqn:CS.
  - split; [|split; [|discriminate]].
    + intros NP. rewrite (stream_step E x st d P CS Q NV D None); [easy|]. unfold stream_prev, has_key. rewrite NP. easy.
    + intros n st' HP N1 N2 N3 R. rewrite (stream_step E x st d P CS Q NV D (Some n)).
      * replace (n =? coff x) with false by lia. rewrite R. easy.
      * unfold stream_prev, has_key. rewrite HP, (find_direct_num _ _ _ HP). cbn [bind]. replace (n =? -1) with false by lia.
        rewrite u64_small by lia. easy.
  - split; [|split].
    + intros NP. rewrite (table_step E x st d P CS Q NV M D). rewrite (find_direct_none _ _ NP). easy.
    + intros n st' HP N1 N2 N3 R. rewrite (table_step E x st d P CS Q NV M D), (find_direct_num _ _ _ HP).
      replace (0 <? n) with true by lia. replace (memz n (visited (after E x st))) with false.
      2:{ symmetry. apply memz_out. cbn [after visited]. intros [A | A]; [congruence|contradiction]. }
      cbn [andb negb]. rewrite R. easy.
    + intros n HP _ N. rewrite (table_step E x st d P CS Q NV M D), (find_direct_num _ _ _ HP).
      replace (memz n (visited (after E x st))) with true by (symmetry; apply memz_in; exact N). rewrite andb_false_r. easy.
Qed.

Lemma linked_closed E all l : pmagic E = 0 -> linked E l -> closed all l.
Proof.
  intros M. induction l as [|x [|y l] IH]; [easy|cbn; auto|].
  intros (A & B & C). rewrite M, Z.sub_0_r in A, B. split; [exact A|split; [exact B|exact (IH C)]].
Qed.

Lemma chain_run E all : Z.of_nat (length (pfile E)) < 2 ^ 63 -> pmagic E = 0 -> forall l st d, Forall (present E) l -> closed all l ->
  NoDup (map coff l) -> queue st = [] -> (forall y, In y all -> In y l \/ In (coff y) (visited st)) ->
  (forall x, In x l -> ~ In (coff x) (visited st)) -> (forall x, In x l -> 2 * length l + cneed x <= d)%nat ->
  match l with [] => True | x :: _ => run E d (JTable (coff x)) st = (Ok tt, ends E l st) end.
Proof.
  intros FL M l. induction l as [|x l IH]; intros st d PR LK ND Q AL NV D; [exact I|].
  pose proof (D x (or_introl eq_refl)) as Dx. cbn [length] in Dx. destruct d as [|[|d]]; [lia|lia|].
  pose proof (Forall_inv PR) as Px. cbn [map] in ND. apply NoDup_cons_iff in ND. destruct ND as [ND1 ND2].
  destruct (step E x st d Px Q (NV x (or_introl eq_refl)) ltac:(lia) ltac:(lia)) as (S1 & S2 & S3).
  destruct l as [|y l].
  - cbn [closed] in LK. destruct LK as [LK | (CS & y & Iy & LK)]; [rewrite (S1 LK); easy|].
    rewrite (S3 _ LK CS); [easy|]. destruct (AL y Iy) as [[<- | []] | A]; [left; easy|right; exact A].
  - cbn [closed] in LK. destruct LK as (L1 & L2 & L3). pose proof (Forall_inv_tail PR) as PR'.
    pose proof (proj1 (Forall_inv PR')) as Oy. apply (S2 (coff y)); [exact L1|lia|cbn in ND1; tauto|apply NV; right; left; easy|].
    change (ends E (x :: y :: l) st) with (ends E (y :: l) (after E x st)).
    apply (IH (after E x st) d); [exact PR'|exact L3|exact ND2|exact Q| | |].
    + intros z I. destruct (AL z I) as [[<- | A] | A]; [right; left; easy|left; exact A|right; right; exact A].
    + intros z I [A | A]; [|apply (NV z); [right; exact I|exact A]]. apply ND1. rewrite A. apply in_map. exact I.
    + intros z I. pose proof (D z (or_intror I)) as Dz. cbn [length] in *. lia.
Qed.
Lemma single_run E x st d : present E x -> cstream x = false -> dict_get (bs "Prev") (cdict x) = None -> queue st = [] ->
  ~ In (coff x) (visited st) -> 0 <= pmagic E -> (2 + cneed x <= d)%nat -> run E d (JTable (coff x)) st = (Ok tt, after E x st).
Proof.
  intros P CS NP Q NV M D. destruct d as [|[|d]]; [lia|lia|]. apply (step E x st d P Q NV M); [lia|exact NP].
Qed.

Lemma ends_look E l : (pmagic E = 0 \/ Forall (fun x => cstream x = false) l) -> Forall (present E) l -> forall st n, 0 <= n ->
  match look (ents st) n with
  | Some e => look (ents (ends E l st)) n = Some e
  | None => forall e, look (ents (ends E l st)) n = Some e <-> newest E l n e
  end.
Proof.
  intros MG PR. induction PR as [|x l Px _ IH]; intros st n N.
  - cbn [ends fold_left]. destruct (look (ents st) n); [easy|]. intros e. cbn. split; [discriminate|easy].
  - specialize (IH ltac:(destruct MG as [A | A]; [left; exact A|right; exact (Forall_inv_tail A)]) (after E x st) n N).
    change (ends E (x :: l) st) with (ends E l (after E x st)). destruct Px as (O1 & W & _).
    assert (MM : (if cstream x then 0 else pmagic E) = pmagic E).
    { destruct MG as [-> | A]; [destruct (cstream x); easy|]. rewrite (Forall_inv A). easy. }
    pose proof (fill_secs_look (pmagic E) (csecs x) 0 (ents st) n ltac:(lia) W N) as FL.
    assert (EA : ents (after E x st) = fill_secs (pmagic E) (csecs x) (ents st)) by (cbn [after ents]; rewrite MM; easy).
    rewrite EA in IH. destruct (look (ents st) n) as [e|].
    + rewrite FL in IH. exact IH.
    + intros e. cbn [newest]. destruct (look (fill_secs (pmagic E) (csecs x) (ents st)) n) as [e'|] eqn:L.
      * rewrite IH. destruct (proj1 (FL e') eq_refl) as (e0 & L0 & ->). split.
        -- intros X. injection X as <-. left. eauto.
        -- intros [(e1 & L1 & ->) | (NL & _)]; [|destruct (NL _ L0)]. f_equal. f_equal. eapply lists_fun; eassumption.
      * rewrite IH. split.
        -- intros H. right. split; [|exact H]. intros e0 L0. destruct (FL (as_read (pmagic E) e0)) as [_ X]. discriminate X; eauto.
        -- intros [(e1 & L1 & ->) | (_ & H)]; [|exact H]. destruct (FL (as_read (pmagic E) e1)) as [_ X]. discriminate X; eauto.
Qed.

(** ** Trailer keys *)
Lemma merge_key_get new cur k q : sorted cur ->
  sorted (merge_key new cur k) /\ dict_get q (merge_key new cur k) =
    if beq q k then match dict_get q cur with Some v => Some v | None => dict_get q new end else dict_get q cur.
Proof.
  intros S0. unfold merge_key. destruct (dict_get k new) as [v|] eqn:A; [destruct (dict_get k cur) as [w|] eqn:B|].
  - split; [exact S0|]. destruct (beq q k) eqn:X; [|easy]. apply beq_eq in X. subst. rewrite B. easy.
  - split; [apply dict_add_sorted; exact S0|]. rewrite dict_get_add by exact S0. destruct (beq q k) eqn:X; [|easy].
    apply beq_eq in X. subst. rewrite B, A. easy.
  - split; [exact S0|]. destruct (beq q k) eqn:X; [|easy]. apply beq_eq in X. subst. rewrite A. destruct (dict_get k cur); easy.
Qed.
Definition key_in (q : list Z) (ks : list (list Z)) : bool := existsb (beq q) ks.
Lemma merge_keys_get new ks : forall cur q, sorted cur ->
  sorted (fold_left (merge_key new) ks cur) /\ dict_get q (fold_left (merge_key new) ks cur) =
    if key_in q ks then match dict_get q cur with Some v => Some v | None => dict_get q new end else dict_get q cur.
Proof.
  induction ks as [|k ks IH]; intros cur q S0; [easy|]. cbn [fold_left]. destruct (merge_key_get new cur k q S0) as [S1 G1].
  destruct (IH _ q S1) as [S2 G2]. split; [exact S2|]. rewrite G2, G1. unfold key_in. cbn [existsb]. destruct (beq q k); cbn [orb].
  - destruct (dict_get q cur); [|destruct (dict_get q new)]; destruct (existsb (beq q) ks); easy.
  - easy.
Qed.
Lemma key_in_In q ks : key_in q ks = true <-> In q ks.
Proof.
  unfold key_in. rewrite existsb_exists. split; [intros (k & I & E); apply beq_eq in E; subst; exact I|intros I; exists q; split; [exact I|apply beq_refl]].
Qed.
Lemma ends_trail E l : Forall (fun x => sorted (cdict x)) l -> forall st c, trail st = Some c -> sorted c ->
  exists c', trail (ends E l st) = Some c' /\
    forall q, dict_get q c' = if key_in q merged_keys then match dict_get q c with Some v => Some v | None => newest_key q l end else dict_get q c.
Proof.
  induction 1 as [|x l Sx _ IH]; intros st c T Sc.
  - exists c. split; [exact T|]. intros q. cbn [newest_key]. destruct (key_in q merged_keys), (dict_get q c); easy.
  - destruct (IH (after E x st) (merge_trailer (cdict x) c)) as (c' & T' & G).
    + cbn [after trail]. rewrite T. easy.
    + apply (merge_keys_get (cdict x) merged_keys c [] Sc).
    + exists c'. split; [exact T'|]. intros q. rewrite G. pose proof (proj2 (merge_keys_get (cdict x) merged_keys c q Sc)) as GM.
      fold (merge_trailer (cdict x) c) in GM. rewrite GM. cbn [newest_key]. destruct (key_in q merged_keys), (dict_get q c); easy.
Qed.
Lemma ends_trail_new E x l st : Forall (fun x => sorted (cdict x)) (x :: l) -> trail st = None ->
  exists c', trail (ends E (x :: l) st) = Some c' /\
    forall q, dict_get q c' = if key_in q merged_keys then newest_key q (x :: l) else dict_get q (cdict x).
Proof.
  intros S0 T. destruct (ends_trail E l (Forall_inv_tail S0) (after E x st) (cdict x)) as (c' & T' & G).
  - cbn [after trail]. rewrite T. easy.
  - exact (Forall_inv S0).
  - exists c'. split; [exact T'|]. exact G.
Qed.
