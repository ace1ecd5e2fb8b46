(** Tokens of content streams: the queue of the tokenizer, values and words. *)
From Coq Require Import Lia String.
From Verif Require Import Base TokModel ReadEq WriteModel DictProofs TokProofs LexProofs ChainProofs ObjSpec ObjProofs FuelProofs ParseProofs CMapModel CMapSpec CMapProofs CMapPropLemmas ContentsModel ContentsSpec.
Local Open Scope Z_scope.

(** ** Without references the queue has at most one token, which is no word *)
Definition quiet (s : tst) : Prop := match tq s with [] => True | [(ty, _)] => ty <> TLit | _ => False end.
Lemma quiet_nil s : tq s = [] -> quiet s. Proof. unfold quiet. intros ->. exact I. Qed.
Lemma quiet_next buf s t s' : quiet s -> next_token buf s = Some (t, s') -> tq s' = [].
Proof.
  unfold quiet, next_token. destruct (tq s) as [|[ty x] [|y q]]; [|intros _ H; injection H as _ <-; reflexivity|contradiction].
  intros _. destruct (tok buf (tin s)) as [[t0 r]|]; [|discriminate]. intros H. injection H as _ <-. reflexivity.
Qed.
Lemma determine_same buf t s dt s' : determine buf false t s = Ok (dt, s') -> s' = s.
Proof.
  unfold determine. destruct t as [ty x]. destruct ty; try discriminate; try (intros H; injection H; congruence).
  destruct (beq x (bs "null")); [intros H; injection H; congruence|]. destruct (beq x (bs "true")); [intros H; injection H; congruence|]. destruct (beq x (bs "false")); [intros H; injection H; congruence|].
  destruct (lit_kind false x) as [[|]|]; [| |intros H; injection H; congruence].
  - destruct (from_chars_real x) as [[m k]|]; [|discriminate]. intros H; injection H; congruence.
  - destruct (from_chars_int x); [|discriminate]. unfold determine_number. cbn [negb]. intros H; injection H; congruence.
Qed.
Lemma read_name_quiet buf s n s' : tq s = [] -> read_name buf s = (n, s') -> quiet s'.
Proof.
  unfold read_name. intros Q. destruct (tin s) as [|c r]; [intros H; injection H as _ <-; apply quiet_nil; exact Q|].
  destruct (is_ws c); [intros H; injection H as _ <-; apply quiet_nil; exact Q|].
  destruct (next_token buf s) as [[[ty x] s1]|] eqn:E; [|intros H; injection H as _ <-; apply quiet_nil; exact Q].
  apply (quiet_next _ _ _ _ (quiet_nil _ Q)) in E. destruct ty; intros H; injection H as _ <-; [..]; try (apply quiet_nil; exact E); unfold quiet, enqueue; cbn [tq]; rewrite E; cbn [app]; discriminate.
Qed.
Lemma read_quiet P fuel : rrefs P = false ->
  (forall d t s v s', read_variant P fuel d t s = Ok (v, s') -> tq s = [] -> quiet s') /\
  (forall d dt s v s', read_data P fuel d dt s = Ok (v, s') -> tq s = [] -> quiet s') /\
  (forall d a s v s', read_array P fuel d a s = Ok (v, s') -> quiet s -> quiet s') /\
  (forall d a c s v s', read_dict P fuel d a c s = Ok (v, s') -> quiet s -> quiet s').
Proof.
  intros NR. induction fuel as [|f (IV & ID & IA & IM)]; [repeat split; intros; discriminate|]. repeat split.
  - intros d t s v s' H Q. rewrite read_variant_S in H. destruct (rmax P <? S d)%nat; [discriminate|].
    bind_case H E. destruct p as [dt s1]. rewrite NR in E. apply determine_same in E. subst s1. exact (ID _ _ _ _ _ H Q).
  - intros d dt s v s' H Q. rewrite read_data_S in H. destruct dt.
    + inv H. apply quiet_nil. exact Q.
    + bind_case H E. destruct p as [x s1]. inv H. exact (IM _ _ _ _ _ _ E (quiet_nil _ Q)).
    + bind_case H E. destruct p as [x s1]. inv H. exact (IA _ _ _ _ _ E (quiet_nil _ Q)).
    + destruct (read_string SNorm 0 (tin s)) as [x k] eqn:E. inv H. apply quiet_nil. exact Q.
    + destruct (read_hex (tin s)) as [x k] eqn:E. inv H. apply quiet_nil. exact Q.
    + destruct (read_name (rbuf P) s) as [x k] eqn:E. inv H. exact (read_name_quiet _ _ _ _ Q E).
    + inv H. apply quiet_nil. exact Q.
  - intros d a s v s' H Q. rewrite read_array_S in H.
    destruct (next_token (rbuf P) s) as [[[ty x] s1]|] eqn:E; [|discriminate]. apply (quiet_next _ _ _ _ Q) in E.
    destruct ty; try (inv H; apply quiet_nil; exact E);
      (bind_case H E1; destruct p as [[o|] s2]; [|discriminate]; apply (IV _ _ _ _ _ E1) in E; exact (IA _ _ _ _ _ H E)).
  - intros d a c s v s' H Q. rewrite read_dict_S in H.
    destruct (next_token (rbuf P) s) as [[[ty x] s1]|] eqn:E; [|discriminate]. apply (quiet_next _ _ _ _ Q) in E.
    assert (G : ty = TDRAng \/ (do (v, s2) <- read_variant P f d (ty, x) s1;
      match v with
      | None => Err EInvalidDataType
      | Some (OName key) =>
        match next_token (rbuf P) s2 with
        | None => Err EUnexpectedEOF
        | Some (t', s3) =>
          do (dt, s4) <- determine (rbuf P) (rrefs P) t' s3;
          match beq key (bs "Contents"), dt with
          | true, DHex => let '(x, k) := read_hex (tin s4) in read_dict P f d a (Some x) (mk_tst (tq s4) k)
          | _, _ =>
            do (v', s5) <- read_data P f d dt s4;
            match v' with None => Err EInvalidDataType | Some o => read_dict P f d (dict_add key o a) c s5 end
          end
        end
      | Some _ => Err EInvalidDataType
      end) = Ok (v, s')) by (destruct ty; auto).
    destruct G as [G|G]; [subst ty; inv H; apply quiet_nil; exact E|]. clear H. rename G into H.
    bind_case H E1. destruct p as [[o|] s2]; [|discriminate]. apply (IV _ _ _ _ _ E1) in E.
    destruct o as [| | | |key| | | |]; try discriminate.
    destruct (next_token (rbuf P) s2) as [[t' s3]|] eqn:E3; [|discriminate]. apply (quiet_next _ _ _ _ E) in E3.
    bind_case H E4. destruct p as [dt s4]. rewrite NR in E4. apply determine_same in E4. subst s4.
    assert (G : (exists x k, read_hex (tin s3) = (x, k) /\ read_dict P f d a (Some x) (mk_tst (tq s3) k) = Ok (v, s')) \/
      (do (v', s5) <- read_data P f d dt s3;
            match v' with None => Err EInvalidDataType | Some o => read_dict P f d (dict_add key o a) c s5 end) = Ok (v, s')).
    { destruct (beq key (bs "Contents")); [|auto]. destruct dt; auto.
      destruct (read_hex (tin s3)) as [y k] eqn:EH. left. exists y, k. auto. }
    destruct G as [(y & k & E5 & G)|G].
    + apply (IM _ _ _ _ _ _ G). apply quiet_nil. exact E3.
    + bind_case G E5. destruct p as [[o|] s5]; [|discriminate]. apply (ID _ _ _ _ _ E5) in E3. exact (IM _ _ _ _ _ _ G E3).
Qed.
Lemma data_none P fuel d dt s s' : read_data P fuel d dt s = Ok (None, s') -> s' = s.
Proof.
  destruct fuel; [discriminate|]. rewrite read_data_S. destruct dt; intros H; try discriminate.
  - bind_case H E. destruct p. discriminate.
  - bind_case H E. destruct p. discriminate.
  - destruct (read_string SNorm 0 (tin s)). discriminate.
  - destruct (read_hex (tin s)). discriminate.
  - destruct (read_name (rbuf P) s). discriminate.
  - injection H. congruence.
Qed.
Lemma next_quiet s i s' : quiet s -> ps_next s = Ok (Some (i, s')) -> quiet s' /\ (match i with PVal _ => True | _ => tq s' = [] end).
Proof.
  intros Q. unfold ps_next. destruct (next_token (rbuf ps_params) s) as [[[ty t] s1]|] eqn:E; [|discriminate]. apply (quiet_next _ _ _ _ Q) in E.
  assert (G : (do (dt, s2) <- determine (rbuf ps_params) (rrefs ps_params) (ty, t) s1; do (v, s3) <- read_data ps_params (ps_fuel s2) 0 dt s2; Ok (Some (match v with Some o => PVal o | None => PKey t end, s3))) = Ok (Some (i, s')) -> quiet s' /\ (match i with PVal _ => True | _ => tq s' = [] end)).
  { intros H. apply bind_ok in H as ([dt s2] & E1 & H). apply bind_ok in H as ([v s3] & E2 & H). injection H as <- <-. change (rrefs ps_params) with false in E1. apply determine_same in E1. subst s2.
    split; [exact (proj1 (proj2 (read_quiet ps_params _ eq_refl)) _ _ _ _ _ E2 E)|]. destruct v; [exact I|]. apply data_none in E2. subst s3. exact E. }
  destruct ty; try exact G; intros H; injection H as <- <-; (split; [apply quiet_nil|]; exact E).
Qed.
Lemma try_quiet s v s' : quiet s -> ps_try_variant s = Ok (v, s') -> quiet s'.
Proof.
  intros Q. unfold ps_try_variant, read_next. destruct (next_token (rbuf ps_params) s) as [[t s1]|] eqn:E; [|intros H; injection H as _ <-; exact Q]. apply (quiet_next _ _ _ _ Q) in E.
  intros H. exact (proj1 (read_quiet ps_params _ eq_refl) _ _ _ _ _ H E).
Qed.

(** ** Words *)
Lemma reads_word s ws n k : quiet s -> reads pbuf s (ws ++ n ++ k) -> blank ws -> word n -> stops k -> s = mk_tst [] (ws ++ n ++ k).
Proof.
  intros Q R B W ST. assert (T : tok pbuf (ws ++ n ++ k) = Some ((TLit, n), k)).
  { rewrite tok_blank by exact B. destruct W as (W1 & W2 & _ & W3). apply tok_lit; auto. intros ->. exact W3. }
  inversion R; subst; [reflexivity| |].
  - rewrite T in H. injection H as <- <-. unfold quiet in Q. cbn [tq] in Q. congruence.
  - unfold quiet in Q. cbn [tq] in Q. contradiction.
Qed.
Lemma word_unknown n s : word n -> determine pbuf false (TLit, n) s = Ok (DUnknown, s).
Proof.
  intros (_ & _ & N & W). unfold determine. rewrite !(proj2 (beq_neq _ _)) by (intros ->; apply N; cbn [In]; auto). destruct n as [|c n]; [contradiction|]. cbn [lit_kind].
  assert (E1 : c =? 46 = false) by (apply Z.eqb_neq; intros ->; apply W; vm_compute; tauto).
  assert (E2 : is_digit c || (c =? 45) || (c =? 43) = false).
  { apply not_true_is_false. intros H. apply W. unfold is_digit in H. change (bs "+-.0123456789") with [43; 45; 46; 48; 49; 50; 51; 52; 53; 54; 55; 56; 57]. cbn [In]. lia. }
  rewrite E1, E2. reflexivity.
Qed.
Lemma ps_word s ws n k : quiet s -> reads pbuf s (ws ++ n ++ k) -> blank ws -> word n -> stops k -> ps_next s = Ok (Some (PKey n, mk_tst [] k)).
Proof.
  intros Q R B W ST. rewrite (reads_word s ws n k) by assumption. rewrite ps_blank by exact B. unfold ps_next, next_token. cbn [tq tin]. pose proof W as (W1 & W2 & _ & W3). rewrite tok_lit; [|intros ->; exact W3|exact W1|exact ST|exact W2].
  change (rrefs ps_params) with false. rewrite word_unknown by exact W. cbn [bind]. destruct (ps_fuel_S (mk_tst [] k)) as [f ->]. reflexivity.
Qed.

(** ** Values *)
Lemma read_data_mono P f1 f2 d t s : (f1 <= f2)%nat -> read_data P f1 d t s <> Fuel -> read_data P f2 d t s = read_data P f1 d t s.
Proof. induction 1 as [|f2 Hle IH]; intro H; [reflexivity|]. rewrite (proj1 (proj2 (read_fuel_S P f2))); [apply IH; exact H|]. rewrite IH by exact H. exact H. Qed.
Lemma read_data_enough P f1 f2 d t s : (3 * mu s + 2 <= f1)%nat -> (3 * mu s + 2 <= f2)%nat -> read_data P f1 d t s = read_data P f2 d t s.
Proof.
  intros H1 H2. destruct (Nat.le_ge_cases f1 f2) as [H|H].
  - symmetry. apply read_data_mono; auto. apply read_nofuel. exact H1.
  - apply read_data_mono; auto. apply read_nofuel. exact H2.
Qed.
Lemma reads_blank s ws x : blank ws -> reads pbuf s (ws ++ x) -> quiet s -> exists s', reads pbuf s' x /\ quiet s' /\ ps_next s = ps_next s' /\ next_token pbuf s = next_token pbuf s' /\ (mu s' <= mu s)%nat.
Proof.
  intros B R Q. inversion R; subst.
  - exists (mk_tst [] x). split; [constructor|]. split; [exact I|]. split; [apply ps_blank; exact B|]. split; [unfold next_token; cbn [tq tin]; rewrite tok_blank by exact B; reflexivity|]. unfold mu. cbn [tin tq]. rewrite app_length. lia.
  - exists (mk_tst [t] r). split; [constructor; rewrite <- H; symmetry; apply tok_blank; exact B|]. split; [exact Q|]. repeat split; lia.
  - unfold quiet in Q. cbn [tq] in Q. contradiction.
Qed.
Lemma ps_value s ws o t k : quiet s -> reads pbuf s (ws ++ t ++ k) -> blank ws -> value_text o t k ->
  exists s', ps_next s = Ok (Some (PVal o, s')) /\ reads pbuf s' k /\ quiet s'.
Proof.
  intros Q R B (fl & FL & W & WF & IN & ST). destruct (reads_blank s ws _ B R Q) as (s0 & R0 & Q0 & E0 & _ & _). rewrite E0. clear s R Q E0.
  destruct (write_reads_back ps_params fl pbuf_20 FL o WF t W k s0 0%nat R0 ST ltac:(intros _ X; discriminate X) ltac:(change (rmax ps_params) with (Z.to_nat 256); lia)) as (tk & s1 & dt & s2 & s' & F & N & T1 & T2 & D & RD & R' & _).
  assert (E : ps_next s0 = Ok (Some (PVal o, s'))).
  { unfold ps_next. rewrite N. destruct tk as [ty x]. cbn [fst] in *.
    assert (X : read_data ps_params (ps_fuel s2) 0 dt s2 = Ok (Some o, s')).
    { rewrite <- (RD (Nat.max F (ps_fuel s2)) ltac:(lia)). symmetry. apply read_data_enough; unfold ps_fuel, mu; lia. }
    destruct ty; try (cbn [determine] in D; discriminate D); rewrite D; cbn [bind]; rewrite X; reflexivity. }
  exists s'. split; [exact E|]. split; [exact R'|]. exact (proj1 (next_quiet _ _ _ Q0 E)).
Qed.
Lemma try_value s ws o t k : quiet s -> reads pbuf s (ws ++ t ++ k) -> blank ws -> value_text o t k ->
  exists s', ps_try_variant s = Ok (Some o, s') /\ reads pbuf s' k /\ quiet s'.
Proof.
  intros Q R B (fl & FL & W & WF & IN & ST). destruct (reads_blank s ws _ B R Q) as (s0 & R0 & Q0 & _ & E0 & M).
  destruct (write_reads_back ps_params fl pbuf_20 FL o WF t W k s0 1%nat R0 ST ltac:(intros _ X; discriminate X) ltac:(change (rmax ps_params) with (Z.to_nat 256); lia)) as (tk & s1 & dt & s2 & s' & F & N & T1 & T2 & D & RD & R' & _).
  assert (E : ps_try_variant s = Ok (Some o, s')).
  { unfold ps_try_variant, read_next. rewrite E0, N. destruct (ps_fuel_S s) as [f EF]. rewrite EF, read_variant_S, pmax_1, D. cbn [bind].
    rewrite <- (RD (Nat.max F (S (S f))) ltac:(lia)). symmetry. apply next_token_mu in N. apply determine_mu in D. unfold ps_fuel in EF. fold (mu s) in EF. apply read_data_enough; lia. }
  exists s'. split; [exact E|]. split; [exact R'|]. exact (try_quiet _ _ _ Q E).
Qed.
