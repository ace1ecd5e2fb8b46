(** Reading with the explicit fuel; termination and nesting. *)
From Coq Require Import String.
From Verif Require Import Base TokModel ReadEq WriteModel DictProofs TokProofs LexProofs RealProofs ObjSpec ObjProofs FuelProofs.
Local Open Scope Z_scope.

Lemma parse_nofuel P inp : parse P inp <> Fuel.
Proof.
  unfold parse, read_next. destruct (next_token (rbuf P) (mk_tst [] inp)) as [[t s]|] eqn:E; [|discriminate].
  apply next_token_mu in E. apply read_nofuel. unfold mu in *. cbn [tin tq length] in E. lia.
Qed.

Lemma parse_any_fuel P inp fuel : (3 * length inp + 3 <= fuel)%nat -> read_next P fuel 0 (mk_tst [] inp) = parse P inp.
Proof.
  intro H. unfold parse, read_next. destruct (next_token (rbuf P) (mk_tst [] inp)) as [[t s]|] eqn:E; [|reflexivity].
  apply next_token_mu in E. unfold mu in *. cbn [tin tq length] in E. apply read_variant_enough; unfold mu; lia.
Qed.

(** No undefined behaviour in the reader. *)
Lemma read_noub P fuel :
  (forall d t s, read_variant P fuel d t s <> UB) /\ (forall d dt s, read_data P fuel d dt s <> UB) /\
  (forall d a s, read_array P fuel d a s <> UB) /\ (forall d a c s, read_dict P fuel d a c s <> UB).
Proof.
  induction fuel as [|f (IV & ID & IA & IM)]; [repeat split; intros; discriminate|]. repeat split.
  - intros d t s. rewrite read_variant_S. destruct (rmax P <? S d)%nat; [discriminate|].
    pose proof (determine_noub (rbuf P) (rrefs P) t s).
    destruct (determine (rbuf P) (rrefs P) t s) as [[dt s1]| | |]; cbn [bind]; auto; discriminate.
  - intros d dt s. rewrite read_data_S. destruct dt; try discriminate.
    + pose proof (IM d [] None s). destruct (read_dict P f d [] None s) as [[x s1]| | |]; cbn [bind]; congruence.
    + pose proof (IA d [] s). destruct (read_array P f d [] s) as [[x s1]| | |]; cbn [bind]; congruence.
    + destruct (read_string SNorm 0 (tin s)); discriminate.
    + destruct (read_hex (tin s)); discriminate.
    + destruct (read_name (rbuf P) s); discriminate.
  - intros d a s. rewrite read_array_S.
    destruct (next_token (rbuf P) s) as [[[ty x] s1]|]; [|discriminate].
    pose proof (IV d (ty, x) s1) as A.
    destruct ty; try discriminate;
      (destruct (read_variant P f d _ s1) as [[[o|] s2]| | |]; cbn [bind]; try congruence; try apply IA).
  - intros d a c s. rewrite read_dict_S.
    destruct (next_token (rbuf P) s) as [[[ty x] s1]|]; [|discriminate].
    pose proof (IV d (ty, x) s1) as A.
    destruct ty; try discriminate;
      (destruct (read_variant P f d _ s1) as [[[o|] s2]| | |]; cbn [bind]; try congruence;
       destruct o as [| | | |key| | | |]; try discriminate;
       destruct (next_token (rbuf P) s2) as [[t' s3]|]; [|discriminate];
       pose proof (determine_noub (rbuf P) (rrefs P) t' s3) as B;
       destruct (determine (rbuf P) (rrefs P) t' s3) as [[dt s4]| | |]; cbn [bind]; try congruence;
       pose proof (ID d dt s4) as C;
       destruct (beq key (bs "Contents")); destruct dt;
       try (destruct (read_hex (tin s4)); apply IM);
       destruct (read_data P f d _ s4) as [[[v|] s5]| | |]; cbn [bind]; try congruence; apply IM).
Qed.

Lemma parse_noub P inp : parse P inp <> UB.
Proof.
  unfold parse, read_next. destruct (next_token (rbuf P) (mk_tst [] inp)) as [[t s]|]; [|discriminate].
  apply read_noub.
Qed.

(** A value read is followed by less text than there was. *)
Lemma parse_progress P inp v s : parse P inp = Ok (v, s) -> (length (tin s) + length (tq s) <= length inp)%nat /\
  (v <> None -> (length (tin s) + length (tq s) < length inp)%nat).
Proof.
  unfold parse, read_next. destruct (next_token (rbuf P) (mk_tst [] inp)) as [[t s1]|] eqn:E.
  - apply next_token_mu in E. intro H. apply read_mu in H. unfold mu in *. cbn [tin tq length] in *. split; lia.
  - intro H. apply ok_inj in H. inversion H; subst. cbn [tin tq length]. split; [lia|congruence].
Qed.

(** Array nesting obeys the guard. *)
Lemma array_nesting_arr l d m : (forall o, In o l -> (d + array_nesting o <= m)%nat) -> (d <= m)%nat -> (d + array_nesting (OArr l) <= S m)%nat.
Proof.
  intros H Hm. cbn [array_nesting]. induction l as [|x l IH]; [lia|].
  assert ((d + S ((fix go l := match l with [] => O | x :: r => Nat.max (array_nesting x) (go r) end) l) <= S m)%nat)
    by (apply IH; intros; apply H; right; auto).
  pose proof (H x (or_introl eq_refl)). lia.
Qed.
Lemma array_nesting_dict e d m : (forall k o, In (k, o) e -> (d + array_nesting o <= m)%nat) -> (d <= m)%nat -> (d + array_nesting (ODict e) <= m)%nat.
Proof.
  intros H Hm. cbn [array_nesting]. induction e as [|[k x] e IH]; [lia|].
  assert ((d + (fix go d := match d with [] => O | (_, v) :: r => Nat.max (array_nesting v) (go r) end) e <= m)%nat)
    by (apply IH; intros; eapply H; right; eauto).
  pose proof (H k x (or_introl eq_refl)). lia.
Qed.

Lemma dict_add_in_val k v (d : list (list Z * obj)) q w : In (q, w) (dict_add k v d) -> w = v \/ In (q, w) d.
Proof.
  induction d as [|[k' v'] d IH]; cbn [dict_add].
  - intros [E|[]]. inversion E; auto.
  - destruct (beq k k').
    + intros [E|E]; [inversion E; auto|right; right; exact E].
    + destruct (bytes_lt k k').
      * intros [E|E]; [inversion E; auto|right; exact E].
      * intros [E|E]; [right; left; exact E|]. destruct (IH E); [auto|right; right; auto].
Qed.

Lemma determine_val_flat buf rr t s o s' : determine buf rr t s = Ok (DVal o, s') -> array_nesting o = O.
Proof.
  unfold determine. destruct t as [ty x]. destruct ty; try discriminate.
  destruct (beq x (bs "null")); [intro H; inversion H; reflexivity|].
  destruct (beq x (bs "true")); [intro H; inversion H; reflexivity|].
  destruct (beq x (bs "false")); [intro H; inversion H; reflexivity|].
  destruct (lit_kind false x) as [[|]|].
  - destruct (from_chars_real x) as [[m k]|]; [|discriminate]. intro H; inversion H; reflexivity.
  - destruct (from_chars_int x); [|discriminate]. intro H. apply ok_inj in H. revert H.
    unfold determine_number. destruct (negb rr); [intro H; inversion H; reflexivity|].
    destruct (next_token buf s) as [[[ty2 t2] s2]|]; [|intro H; inversion H; reflexivity].
    destruct ty2; try (intro H; inversion H; reflexivity).
    destruct (from_chars_int t2); [|intro H; inversion H; reflexivity].
    destruct (next_token buf s2) as [[[ty3 t3] s3]|]; [|intro H; inversion H; reflexivity].
    destruct ty3; try (intro H; inversion H; reflexivity).
    destruct t3 as [|c [|d t3]]; try (intro H; inversion H; reflexivity);
    destruct c as [|p|p]; try (intro H; inversion H; reflexivity);
    do 7 (try (destruct p as [p|p|]; try (intro H; inversion H; reflexivity))).
  - discriminate.
Qed.

Lemma read_array_nesting P fuel :
  (forall d t s o s', read_variant P fuel d t s = Ok (Some o, s') -> (d + array_nesting o <= rmax P)%nat) /\
  (forall d dt s o s', (d <= rmax P)%nat -> (forall v, dt = DVal v -> array_nesting v = O) ->
      read_data P fuel d dt s = Ok (Some o, s') -> (d + array_nesting o <= S (rmax P))%nat) /\
  (forall d a s l s', (forall o, In o a -> (d + array_nesting o <= rmax P)%nat) -> read_array P fuel d a s = Ok (l, s') ->
      forall o, In o l -> (d + array_nesting o <= rmax P)%nat) /\
  (forall d a c s l s', (d <= rmax P)%nat -> (forall k o, In (k, o) a -> (d + array_nesting o <= S (rmax P))%nat) ->
      read_dict P fuel d a c s = Ok (l, s') -> forall k o, In (k, o) l -> (d + array_nesting o <= S (rmax P))%nat).
Proof.
  induction fuel as [|f (IV & ID & IA & IM)]; [repeat split; intros; discriminate|]. repeat split.
  - intros d t s o s' H. rewrite read_variant_S in H. destruct (rmax P <? S d)%nat eqn:E; [discriminate|].
    apply Nat.ltb_ge in E. bind_case H E1. destruct p as [dt s1].
    apply ID in H; [lia|lia|]. intros v ->. eapply determine_val_flat; eauto.
  - intros d dt s o s' Hd Hv H. rewrite read_data_S in H. destruct dt.
    + inv H. rewrite (Hv _ eq_refl). lia.
    + bind_case H E. destruct p as [x s1]. inv H. apply array_nesting_dict; [|lia].
      eapply IM; eauto. intros k o [].
    + bind_case H E. destruct p as [x s1]. inv H. apply array_nesting_arr; [|lia].
      eapply IA; eauto. intros o [].
    + destruct (read_string SNorm 0 (tin s)). inv H. cbn. lia.
    + destruct (read_hex (tin s)). inv H. cbn. lia.
    + destruct (read_name (rbuf P) s). inv H. cbn. lia.
    + discriminate.
  - intros d a s l s' Ha H. rewrite read_array_S in H.
    destruct (next_token (rbuf P) s) as [[[ty x] s1]|]; [|discriminate].
    destruct ty; try (inv H; exact Ha);
      (bind_case H E1; destruct p as [[o|] s2]; [|discriminate]; apply IV in E1; eapply IA; [|exact H];
       intros q Hq; apply in_app_or in Hq; destruct Hq as [Hq|[<-|[]]]; [auto|exact E1]).
  - intros d a c s l s' Hd Ha H. rewrite read_dict_S in H.
    destruct (next_token (rbuf P) s) as [[[ty x] s1]|] eqn:E; [|discriminate].
    assert (G : ty = TDRAng \/ (do (v, s2) <- read_variant P f d (ty, x) s1;
      match v with
      | None => Err EInvalidDataType
      | Some (OName key) =>
        match next_token (rbuf P) s2 with
        | None => Err EUnexpectedEOF
        | Some (t', s3) =>
          do (dt, s4) <- determine (rbuf P) (rrefs P) t' s3;
          match beq key (bs "Contents"), dt with
          | true, DHex => let '(x, k) := read_hex (tin s4) in read_dict P f d a (Some x) (mk_tst (tq s4) k)
          | _, _ =>
            do (v', s5) <- read_data P f d dt s4;
            match v' with None => Err EInvalidDataType | Some o => read_dict P f d (dict_add key o a) c s5 end
          end
        end
      | Some _ => Err EInvalidDataType
      end) = Ok (l, s')) by (destruct ty; auto).
    destruct G as [G|G].
    { subst ty. inv H. intros k o Hi. destruct c; [|eauto]. apply dict_add_in_val in Hi. destruct Hi as [->|Hi]; [cbn; lia|eauto]. }
    clear H. rename G into H.
    bind_case H E1. destruct p as [[o|] s2]; [|discriminate].
    destruct o as [| | | |key| | | |]; try discriminate.
    destruct (next_token (rbuf P) s2) as [[t' s3]|] eqn:E3; [|discriminate].
    bind_case H E4. destruct p as [dt s4].
    assert (G : (exists x k, read_hex (tin s4) = (x, k) /\ read_dict P f d a (Some x) (mk_tst (tq s4) k) = Ok (l, s')) \/
      (do (v', s5) <- read_data P f d dt s4;
            match v' with None => Err EInvalidDataType | Some o => read_dict P f d (dict_add key o a) c s5 end) = Ok (l, s')).
    { destruct (beq key (bs "Contents")); [|auto]. destruct dt; auto.
      destruct (read_hex (tin s4)) as [y k] eqn:EH. left. exists y, k. auto. }
    destruct G as [(y & k & E5 & G)|G].
    + eapply IM; eauto.
    + bind_case G E5. destruct p as [[o|] s5]; [|discriminate].
      apply ID in E5; [|lia|intros v ->; eapply determine_val_flat; eauto].
      eapply IM; [exact Hd| |exact G].
      intros q w Hi. apply dict_add_in_val in Hi. destruct Hi as [->|Hi]; [exact E5|eauto].
Qed.

Lemma parse_array_nesting P inp o s : parse P inp = Ok (Some o, s) -> (array_nesting o <= rmax P)%nat.
Proof.
  unfold parse, read_next. destruct (next_token (rbuf P) (mk_tst [] inp)) as [[t s1]|]; [|discriminate].
  intro H. apply read_array_nesting in H. exact H.
Qed.

(** * Round trip with the explicit fuel *)
Lemma parse_back P fl o t k : (20 <= rbuf P)%nat -> flags_ok fl -> wf_obj P o -> write fl o = Ok t ->
  may_follow P o k -> (S (inner o) <= rmax P)%nat ->
  exists s, parse P (t ++ k) = Ok (Some o, s) /\ reads (rbuf P) s k.
Proof.
  intros Hb Hf Hwf Hw [H1 H2] Hd.
  destruct (write_reads_back P fl Hb Hf o Hwf t Hw k (mk_tst [] (t ++ k)) 1%nat (reads_0 _ _) H1 H2 Hd)
    as (tk & s1 & dt & s2 & s' & F & Hn & _ & _ & Hdet & Hrd & Hs' & _).
  exists s'. split; [|exact Hs'].
  rewrite <- (parse_any_fuel P (t ++ k) (3 * length (t ++ k) + 3 + S F)) by lia.
  unfold read_next. rewrite Hn.
  replace (3 * length (t ++ k) + 3 + S F)%nat with (S (3 * length (t ++ k) + 3 + F)) by lia.
  rewrite read_variant_S. rewrite (proj2 (Nat.ltb_ge (rmax P) 1)) by lia. rewrite Hdet. cbn [bind]. apply Hrd. lia.
Qed.

(** Writing succeeds on every object in the claim. *)
Lemma write_total P fl o : wf_obj P o -> exists t, write fl o = Ok t.
Proof.
  induction o as [|b|n|m k0|n|h x|n g|l IH|d IH] using obj_ind2; intros Hwf; try (eexists; reflexivity).
  - destruct Hwf as (Hb & Hz & _). cbn [write]. unfold write_name.
    destruct (escape_name_ok n Hb Hz) as [e He]. rewrite He. eexists; reflexivity.
  - rewrite write_arr. rewrite wf_arr_iff in Hwf.
    assert (G : forall c, exists x, arr_text fl c l = Ok x).
    { induction IH as [|o l Ho _ IH']; intro c; [eexists; reflexivity|]. inversion Hwf; subst.
      destruct (Ho H1) as [a Ha]. destruct (IH' H2 (c + 1)) as [b Hb].
      cbn [arr_text]. rewrite Ha. cbn [bind]. rewrite Hb. eexists; reflexivity. }
    destruct (G 1) as [x Hx]. rewrite Hx. eexists; reflexivity.
  - rewrite wf_dict_iff in Hwf. destruct Hwf as [_ Hwf]. cbn [write].
    match goal with |- exists t, bind ?A _ = _ => assert (G1 : exists x, A = Ok x) end.
    { clear - IH Hwf. induction IH as [|[k v] d Ho _ IH']; [eexists; reflexivity|]. inversion Hwf; subst. cbn [fst snd] in *.
      destruct (beq k (bs "Type")); [|auto]. destruct (Ho (proj2 H1)) as [a Ha]. rewrite Ha. eexists; reflexivity. }
    destruct G1 as [y ->]. cbn [bind].
    match goal with |- exists t, bind ?A _ = _ => assert (G2 : exists x, A = Ok x) end.
    { clear - IH Hwf. induction IH as [|[k v] d Ho _ IH']; [eexists; reflexivity|]. inversion Hwf; subst. cbn [fst snd] in *.
      destruct (beq k (bs "Type")); [auto|]. destruct H1 as [(Hb & Hz & _) Hv]. destruct (Ho Hv) as [a Ha]. 
      assert (W : exists n, write_name k = Ok n)
        by (unfold write_name; destruct (escape_name_ok k Hb Hz) as [e He]; rewrite He; eexists; reflexivity).
      destruct W as [n W]. rewrite W. cbn [bind]. rewrite Ha. cbn [bind].
      destruct (IH' H2) as [z ->]. eexists; reflexivity. }
    destruct G2 as [z ->]. eexists; reflexivity.
Qed.

(** * Hexadecimal text as the standard reads it *)
Definition hexv (c : Z) : list Z := match hex_val c with Some v => [v] | None => [] end.

Lemma hex_val_range c v : hex_val c = Some v -> 0 <= v < 16.
Proof.
  unfold hex_val, is_digit. destruct ((48 <=? c) && (c <=? 57)) eqn:E1; [intro H; inversion H; lia|].
  destruct ((65 <=? c) && (c <=? 70)) eqn:E2; [intro H; inversion H; lia|].
  destruct ((97 <=? c) && (c <=? 102)) eqn:E3; [intro H; inversion H; lia|discriminate].
Qed.

Lemma hex_digits_text w : forall k, ~ In 62 w -> hex_digits (w ++ 62 :: k) = (filter is_hex w, k).
Proof.
  induction w as [|c w IH]; intros k H; [reflexivity|]. cbn [app hex_digits].
  destruct (c =? 62) eqn:E; [exfalso; apply H; left; lia|].
  rewrite IH by (intro A; apply H; right; exact A). cbn [filter]. destruct (is_hex c); reflexivity.
Qed.

Lemma hex_not_ws c : is_hex c = true -> is_ws c = false.
Proof.
  unfold is_hex, hex_val, is_digit, is_ws. intro H.
  destruct ((48 <=? c) && (c <=? 57)) eqn:E1; [|destruct ((65 <=? c) && (c <=? 70)) eqn:E2; [|destruct ((97 <=? c) && (c <=? 102)) eqn:E3; [|discriminate]]]; lia.
Qed.

Lemma pair_byte h l : 0 <= h < 16 -> 0 <= l < 16 -> u8 (Z.lor (h * 16) l) = 16 * h + l.
Proof.
  intros Hh Hl.
  assert (E : forallb (fun h => forallb (fun l => u8 (Z.lor (h * 16) l) =? 16 * h + l) (map Z.of_nat (seq 0 16))) (map Z.of_nat (seq 0 16)) = true)
    by (vm_compute; reflexivity).
  rewrite forallb_forall in E. specialize (E h). rewrite forallb_forall in E. apply Z.eqb_eq. apply E.
  - apply in_map_iff. exists (Z.to_nat h). split; [lia|]. apply in_seq. lia.
  - apply in_map_iff. exists (Z.to_nat l). split; [lia|]. apply in_seq. lia.
Qed.

Lemma from_hex_pairs n : forall ds, (length ds <= n)%nat -> Forall (fun c => is_hex c = true) ds ->
  from_hex None (if Nat.odd (length ds) then ds ++ [48] else ds) = hex_pairs (flat_map hexv ds).
Proof.
  induction n as [|n IH]; intros ds Hn Hd.
  - destruct ds; [reflexivity|cbn in Hn; lia].
  - destruct ds as [|a [|b ds]]; [reflexivity| |].
    + inversion Hd; subst. change (from_hex None ([a] ++ [48]) = hex_pairs (flat_map hexv [a])).
      cbn [app from_hex]. rewrite (hex_not_ws a) by auto.
      change (is_ws 48) with false. cbn match.
      unfold is_hex in H1. destruct (hex_val a) as [v|] eqn:Ev; [|discriminate].
      change (hex_val 48) with (Some 0). cbn match. apply hex_val_range in Ev as Hr.
      rewrite pair_byte by lia. cbn [flat_map]. unfold hexv. rewrite Ev. cbn. f_equal. lia.
    + inversion Hd as [|? ? Ha Hd']; subst. inversion Hd' as [|? ? Hb Hd'']; subst.
      specialize (IH ds ltac:(cbn in Hn; lia) Hd'').
      change (Nat.odd (length (a :: b :: ds))) with (Nat.odd (length ds)).
      assert (E : (if Nat.odd (length ds) then (a :: b :: ds) ++ [48] else a :: b :: ds) =
                  a :: b :: (if Nat.odd (length ds) then ds ++ [48] else ds)) by (destruct (Nat.odd (length ds)); reflexivity).
      rewrite E. cbn [from_hex]. rewrite (hex_not_ws a Ha), (hex_not_ws b Hb).
      unfold is_hex in Ha, Hb. destruct (hex_val a) as [va|] eqn:Ea; [|discriminate].
      destruct (hex_val b) as [vb|] eqn:Eb; [|discriminate].
      apply hex_val_range in Ea as Ra. apply hex_val_range in Eb as Rb.
      rewrite IH, pair_byte by lia. cbn [flat_map]. unfold hexv at 2 3. rewrite Ea, Eb. reflexivity.
Qed.

Lemma read_hex_meaning w k : ~ In 62 w -> read_hex (w ++ 62 :: k) = (hex_meaning w, k).
Proof.
  intro H. unfold read_hex, read_hex_text. rewrite hex_digits_text by exact H.
  rewrite (from_hex_pairs (length (filter is_hex w))); [|lia|apply Forall_forall; intros c Hc; apply filter_In in Hc; tauto].
  unfold hex_meaning. do 2 f_equal. clear. induction w as [|c w IH]; [reflexivity|].
  cbn [filter flat_map]. unfold is_hex at 1. destruct (hex_val c) as [v|] eqn:E.
  - cbn [flat_map app]. unfold hexv at 1. rewrite E. cbn [app]. f_equal. exact IH.
  - exact IH.
Qed.

Lemma parse_hex_string P w k : (20 <= rbuf P)%nat -> (1 <= rmax P)%nat -> ~ In 62 w -> (match w with c :: _ => c <> 60 | [] => True end) ->
  parse P (60 :: w ++ 62 :: k) = Ok (Some (OStr true (hex_meaning w)), mk_tst [] k).
Proof.
  intros Hb Hm Hw H60.
  assert (T : tok (rbuf P) (60 :: w ++ 62 :: k) = Some ((TLAng, [60]), w ++ 62 :: k)).
  { unfold tok. cbn [tok_from]. change (is_ws 60) with false. cbn match. change (60 =? 37) with false. cbn match.
    change ((60 =? 60) || (60 =? 62)) with true. cbn match.
    destruct w as [|c w]; cbn [app]; [reflexivity|]. apply Z.eqb_neq in H60. rewrite H60. reflexivity. }
  rewrite <- (parse_any_fuel P _ (S (S (3 * length (60 :: w ++ 62 :: k) + 3)))) by lia.
  unfold read_next, next_token. cbn [tq tin]. rewrite T. rewrite read_variant_S.
  rewrite (proj2 (Nat.ltb_ge (rmax P) 1)) by lia. cbn [determine bind]. rewrite read_data_S. cbn [tin tq].
  rewrite read_hex_meaning by exact Hw. reflexivity.
Qed.
