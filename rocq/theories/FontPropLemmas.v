(** Lemmas for FontProps.v: texts, CIDs, lengths and simple fonts. *)
From Coq Require Import Permutation Sorted.
From Verif Require Import Base CodeModel CodeSpec CodeProofs CodePropLemmas CidModel CidSpec CidProofs FontModel FontSpec FontProofs ChainProofs.
Local Open Scope Z_scope.

Lemma stands_nodup ps c p : NoDup (map (fun q => c_num (fst q)) ps) -> In (c, p) ps -> stands_for ps c p.
Proof.
  intros ND X. apply in_split in X. destruct X as (a & b & ->). exists a, b. split; [reflexivity|]. intros q Q E. rewrite map_app in ND. cbn [map fst] in ND. apply NoDup_remove_2 in ND.
  apply ND. apply in_app_iff. right. apply List.in_map_iff. exists q. auto.
Qed.
Lemma number_fst_nodup (A : Type) (l : list A) : forall n, NoDup (map fst (number_from n l)).
Proof.
  induction l as [|x l IH]; intros n; cbn [number_from map fst]; constructor; [|apply IH]. intros X. apply List.in_map_iff in X. destruct X as ([i y] & E & X). cbn in E. subst i.
  destruct (number_range _ _ _ _ _ X). lia.
Qed.
Lemma pushes_nums (o : list (Z * list Z)) (v : Z * (Z * list Z) -> list Z) : NoDup (map (fun q => c_num (fst q)) (map (fun q => (tight (fst q), v q)) (number_from 1 o))).
Proof. rewrite map_map. cbn [fst tight c_num]. exact (number_fst_nodup _ o 1). Qed.
Lemma text_stands f h id g cps : finv None f h -> In (id, (g, cps)) (number_from 1 (firsts h)) -> code_points (f_text f) (tight id) = Some cps /\ code_points (f_cids f) (tight id) = Some [id].
Proof.
  intros (_ & _ & _ & R & _) X. destruct (R eq_refl) as [R1 R2]. split.
  - apply (look_stands _ (text_pushes (firsts h))); [exact (reach_inv _ _ R2)|]. apply stands_nodup; [apply pushes_nums|]. apply List.in_map_iff. exists (id, (g, cps)). auto.
  - apply (look_stands _ (cid_pushes (firsts h))); [exact (reach_inv _ _ R1)|]. apply stands_nodup; [apply pushes_nums|]. apply List.in_map_iff. exists (id, (g, cps)). auto.
Qed.
Lemma one_byte (o : list (Z * list Z)) (v : Z * (Z * list Z) -> list Z) s : Z.of_nat (length o) <= 255 -> o <> [] -> reach s (map (fun q => (tight (fst q), v q)) (number_from 1 o)) -> l_min (m_limits s) = 1 /\ l_max (m_limits s) = 1.
Proof.
  intros B NE R. assert (SZ : forall q, In q (map (fun q => (tight (fst q), v q)) (number_from 1 o)) -> c_size (fst q) = 1).
  { intros q X. apply List.in_map_iff in X. destruct X as ([i x] & <- & X). destruct (number_range _ _ _ _ _ X) as [X1 _]. cbn [fst]. rewrite tight_small by lia. reflexivity. }
  assert (LO : lim_ok (m_limits s) (map (fun q => (tight (fst q), v q)) (number_from 1 o))) by (apply reach_limits; [exact R|]; apply Forall_forall; intros q X; rewrite (SZ q X); lia).
  destruct LO as (_ & L2 & _). destruct L2 as [(a & A1 & A2) (b & B1 & B2)]; [destruct o; [contradiction|discriminate]|]. rewrite (SZ _ A1) in A2. rewrite (SZ _ B1) in B2. lia.
Qed.
Lemma put_text_ok enc : forall gs f h acc f' out, put_text enc f gs acc = Ok (f', out) -> finv enc f h -> countable f' ->
  grows enc f f' (map (fun q => (fst q, [snd q])) gs) /\
  exists us, Forall2 (fun q x => In (fst q, x) (f_gids f')) gs us /\ out = acc ++ concat (map (fun x => code_bytes (snd x)) us).
Proof.
  induction gs as [|[g cp] gs IH] using rev_ind; intros f h acc f' out E FI C.
  - cbn [put_text] in E. apply ok_inj in E. injection E as <- <-. split; [constructor|]. exists []. split; [constructor|]. cbn. rewrite app_nil_r. reflexivity.
  - assert (SP : exists f1 o1, put_text enc f gs acc = Ok (f1, o1) /\ put_text enc f1 [(g, cp)] o1 = Ok (f', out)).
    { clear -E. revert f acc E. induction gs as [|[a b] gs IHg]; intros f acc E; [exists f, acc; split; [reflexivity|exact E]|]. cbn [app put_text] in *.
      apply bind_ok in E. destruct E as ([fx cx] & -> & E). cbn [bind fst snd] in *. apply bind_ok in E. destruct E as (acc1 & -> & E). cbn [bind]. exact (IHg _ _ E). }
    destruct SP as (f1 & o1 & P1 & P2). cbn [put_text] in P2. apply bind_ok in P2. destruct P2 as ([fx cx] & A & P2). cbn [fst snd] in P2. apply bind_ok in P2. destruct P2 as (acc1 & AP & P2).
    apply ok_inj in P2. injection P2 as -> ->. assert (C1 : countable f1) by (unfold countable in *; pose proof (add_mono _ _ _ _ _ _ A); lia).
    destruct (IH f h acc f1 o1 P1 FI C1) as (G & us & U1 & U2). split; [rewrite map_app; cbn [map fst snd]; exact (G_add _ _ _ _ _ _ _ _ G A)|].
    destruct (finv_grows _ _ _ _ _ G FI C1) as [F1 _]. destruct (finv_add _ _ _ _ _ _ _ F1 C A) as (F2 & I1 & I2).
    exists (us ++ [cx]). split.
    + apply Forall2_app; [|constructor; [exact I1|constructor]]. clear -U1 I2. induction U1 as [|q x gs us H U IH]; constructor; auto.
    + unfold append_code in AP. destruct (4 <? c_size (snd cx)); [discriminate|]. apply ok_inj in AP. rewrite <- AP, U2, map_app, concat_app, <- app_assoc. cbn [map concat]. rewrite app_nil_r. reflexivity.
Qed.
Lemma gids_of_ok gid_of : forall text gs, gids_of gid_of text = Some gs -> Forall2 (fun q cp => gid_of cp = Some (fst q) /\ snd q = cp) gs text.
Proof.
  induction text as [|cp text IH]; intros gs E; cbn [gids_of] in E; [injection E as <-; constructor|]. destruct (gid_of cp) as [g|] eqn:G; [|discriminate].
  destruct (gids_of gid_of text) as [r|]; [|discriminate]. injection E as <-. constructor; [auto|]. apply IH. reflexivity.
Qed.
(** The request for a glyph that stands first in a history of texts *)
Lemma asks_first gid_of h t : asks gid_of h t -> forall g cps, In (g, cps) h -> exists cp, In cp t /\ gid_of cp = Some g /\ cps = [cp].
Proof.
  induction 1 as [|q cp h t [A B] F IH]; intros g cps X; [destruct X|]. destruct X as [->|X].
  - exists cp. cbn [fst snd] in *. split; [left; reflexivity|auto].
  - destruct (IH g cps X) as (c & C1 & C2). exists c. split; [right; exact C1|exact C2].
Qed.
Lemma firsts_incl h : forall x, In x (firsts h) -> In x h.
Proof.
  induction h as [|q h IH] using rev_ind; intros x X; [exact X|]. rewrite firsts_app in X. apply in_app_iff in X. apply in_app_iff. destruct X as [X|X]; [left; exact (IH x X)|].
  destruct (asked (fst q) h); [destruct X|right; exact X].
Qed.
(** CIDs of codes of one size *)
Lemma cids_chunks look l n : 1 <= n <= 4 -> l_min l = n -> l_max l = n -> forall cs, Forall (fun x => c_size (fst x) = n /\ 0 <= c_num (fst x) < 256 ^ n /\ look (fst x) = Some [snd x]) cs ->
  forall fuel, (length (concat (map (fun x => code_bytes (fst x)) cs)) <= fuel)%nat -> cids_of fuel true look l (concat (map (fun x => code_bytes (fst x)) cs)) = Ok (map snd cs, true).
Proof.
  intros N LM LX. induction cs as [|[c p] cs IH]; intros F fuel B; [destruct fuel; reflexivity|]. cbn [map concat fst snd] in *.
  assert (F1 : c_size c = n /\ 0 <= c_num c < 256 ^ n /\ look c = Some [p]) by (inversion F; assumption). assert (F2 := Forall_inv_tail F). destruct F1 as (SZ & NB & LK).
  destruct (append_bytes_ok (c_num c) (Z.to_nat (c_size c)) (proj1 NB)) as (AB & AL & AN). unfold code_bytes in *. rewrite app_length, AL in B.
  set (bytes := append_bytes (c_num c) (Z.to_nat (c_size c))) in *. assert (NE : bytes <> []) by (intros E; rewrite E in AL; cbn in AL; lia).
  set (rest := concat (map (fun x : code * Z => append_bytes (c_num (fst x)) (Z.to_nat (c_size (fst x)))) cs)) in *.
  destruct fuel as [|f]; [lia|].
  assert (NP : next_points look l (bytes ++ rest) 0 1 = Some ([p], rest)).
  { apply (next_points_code look l n); auto; try lia. rewrite AL, AN. cbn [Z.mul Z.add]. rewrite Z2Nat.id by lia. rewrite Z.mod_small by (rewrite SZ; exact NB). rewrite <- LK. f_equal. destruct c as [a b]. cbn in *. congruence. }
  destruct bytes as [|b bytes]; [contradiction|]. cbn [app cids_of]. change (b :: bytes ++ rest) with ((b :: bytes) ++ rest). rewrite NP. rewrite (IH F2) by lia. reflexivity.
Qed.
Lemma text_back gid_of f h t0 text f1 out f2 h2 t2 : history None f h -> asks gid_of h t0 -> write_text None gid_of f text = Ok (f1, Some out) -> grows None f1 f2 h2 -> asks gid_of h2 t2 ->
  told_apart gid_of (t0 ++ text ++ t2) -> Z.of_nat (length (f_gids f2)) <= 255 -> Forall (fun cp => kept cp = true) text ->
  read_text f2 out = Ok (text, true) /\ exists ids, read_cids f2 out = Ok (ids, true) /\ Forall2 (fun cp id => exists g, gid_of cp = Some g /\ In (id, g) (subset_map (f_gids f2))) text ids.
Proof.
  intros H A0 W G A2 TA LE K. unfold write_text in W. destruct (gids_of gid_of text) as [gs|] eqn:GS; [|discriminate]. apply bind_ok in W. destruct W as ([fx ox] & P & W). cbn [fst snd] in W.
  apply ok_inj in W. injection W as -> ->. pose proof (grows_mono _ _ _ _ G) as M2.
  assert (C2 : countable f2) by (unfold countable; lia). assert (C1 : countable f1) by (unfold countable; lia).
  assert (G01 : (length (f_gids f) <= length (f_gids f1))%nat).
  { clear -P. revert f P. generalize (@nil Z). induction gs as [|[g cp] gs IH]; intros acc f P; cbn [put_text] in P; [apply ok_inj in P; injection P as <- _; lia|].
    apply bind_ok in P. destruct P as ([fx cx] & A & P). cbn [fst snd] in P. apply bind_ok in P. destruct P as (acc1 & _ & P). pose proof (IH _ _ P). pose proof (add_mono _ _ _ _ _ _ A). lia. }
  assert (C0 : countable f) by (unfold countable; lia). pose proof (finv_history _ _ _ H C0) as F0.
  destruct (put_text_ok None gs f h [] f1 out P F0 C1) as (G1 & us & U1 & U2). cbn [app] in U2. destruct (finv_grows _ _ _ _ _ G1 F0 C1) as [F1 _]. destruct (finv_grows _ _ _ _ _ G F1 C2) as [F2 I2].
  set (hh := (h ++ map (fun q : Z * Z => (fst q, [snd q])) gs) ++ h2) in *. pose proof (gids_of_ok gid_of text gs GS) as GO.
  assert (AA : asks gid_of hh (t0 ++ text ++ t2)).
  { unfold asks, hh. rewrite app_assoc. apply Forall2_app; [|exact A2]. apply Forall2_app; [exact A0|]. clear -GO. induction GO as [|q cp gs t [A B] F IH]; cbn [map]; constructor; [|exact IH]. cbn [fst snd]. rewrite B. auto. }
  assert (LF : Z.of_nat (length (firsts hh)) <= 255) by (destruct F2 as (_ & L & _); lia).
  assert (PER : Forall2 (fun cp x => exists g, gid_of cp = Some g /\ In (fst x, (g, [cp])) (number_from 1 (firsts hh)) /\ snd x = tight (fst x) /\ 1 <= fst x <= 255 /\ In (fst x, g) (subset_map (f_gids f2))) text us).
  { assert (TX : forall cp, In cp text -> In cp (t0 ++ text ++ t2)) by (intros cp X; rewrite !in_app_iff; auto). remember (t0 ++ text ++ t2) as T eqn:ET. clear ET. revert TX. clear U2 P K GS G1 F1.
    assert (U1' : Forall2 (fun q x => In (fst q, x) (f_gids f2)) gs us) by (clear -U1 I2; induction U1; constructor; auto). clear U1. revert us U1'.
    assert (NG : hh = hh) by reflexivity. clearbody hh. clear -GO F2 AA TA LF. induction GO as [|q cp gs t [A B] F IH]; intros us U TX; [inversion U; constructor|].
    destruct us as [|x us]; [inversion U|]. assert (X1 : In (fst q, x) (f_gids f2)) by (inversion U; assumption). assert (X2 : Forall2 (fun q x => In (fst q, x) (f_gids f2)) gs us) by (inversion U; assumption).
    constructor; [|exact (IH us X2 (fun c C => TX c (or_intror C)))]. exists (fst q). split; [exact A|]. destruct x as [id u]. pose proof F2 as (K2 & L2 & IF & _). apply IF in X1. destruct X1 as (cps & Y1 & Y2).
    destruct (number_range _ _ _ _ _ Y1) as [Y3 Y4]. destruct (asks_first _ _ _ AA _ _ (firsts_incl _ _ Y4)) as (cp' & Z1 & Z2 & ->).
    assert (cp' = cp) by (apply (TA cp' cp (fst q)); auto; apply TX; left; reflexivity). subst cp'. cbn [fst snd]. split; [exact Y1|].
    split; [apply (least_unique id); [exact Y2|apply tight_least; lia]|]. split; [lia|]. rewrite (subset_map_ok _ _ _ F2). apply List.in_map_iff. exists (id, (fst q, [cp])). auto. }
  destruct text as [|cp0 text0].
  { inversion PER; subst us. cbn in U2. subst out. split; [reflexivity|]. exists []. split; [reflexivity|constructor]. }
  set (text := cp0 :: text0) in *. assert (NE : firsts hh <> []). { intros E0. clearbody hh. assert (X : exists g x, In (fst x, (g, [cp0])) (number_from 1 (firsts hh))) by (subst text; inversion PER as [|a b c d (g & X1 & X2 & X3)]; subst; eauto).
    destruct X as (g & x & X). rewrite E0 in X. destruct X. }
  clearbody text. assert (BY : Forall2 (fun cp x => c_size (snd x) = 1 /\ 0 <= c_num (snd x) < 256 ^ 1 /\ code_points (f_text f2) (snd x) = Some [cp] /\ code_points (f_cids f2) (snd x) = Some [fst x]) text us).
  { clear -PER F2. induction PER as [|cp x t us (g & P1 & P2 & P3 & P4 & P5) F IH]; constructor; [|exact IH]. destruct (text_stands _ _ _ _ _ F2 P2) as [S1 S2]. rewrite P3. split; [rewrite tight_small by lia; reflexivity|].
    split; [change (256 ^ 1) with 256; cbn [tight c_num]; lia|]. auto. }
  destruct F2 as (_ & _ & _ & R & _). destruct (R eq_refl) as [R1 R2]. destruct (one_byte _ _ _ LF NE R1) as [L1 L2]. destruct (one_byte _ _ _ LF NE R2) as [L3 L4]. split.
  - unfold read_text.
    assert (EQ : out = concat (map (fun x => code_bytes (fst x)) (combine (map snd us) (map (fun cp => [cp]) text)))).
    { rewrite U2. clear -BY. induction BY as [|cp x t us P F IH]; [reflexivity|]. cbn [map combine concat fst]. rewrite IH. reflexivity. }
    rewrite EQ, (decode_chunks (code_points (f_text f2)) (m_limits (f_text f2)) 1 ltac:(lia) L3 L4).
    + f_equal. f_equal. assert (E : concat (map snd (combine (map snd us) (map (fun cp => [cp]) text))) = text). { clear -BY. induction BY as [|cp x t us P F IH]; [reflexivity|]. cbn [map combine concat snd app]. rewrite IH. reflexivity. }
      rewrite E. apply filter_id. exact K.
    + clear -BY. induction BY as [|cp x t us (P1 & P2 & P3 & P4) F IH]; [constructor|]. cbn [map combine]. constructor; [cbn [fst snd]; auto|exact IH].
    + lia.
  - exists (map fst us). split.
    + unfold read_cids. assert (EQ : out = concat (map (fun x => code_bytes (fst x)) (map (fun x => (snd x, fst x)) us))) by (rewrite U2, map_map; reflexivity).
      rewrite EQ, (cids_chunks (code_points (f_cids f2)) (m_limits (f_cids f2)) 1 ltac:(lia) L1 L2); [rewrite map_map; reflexivity| |lia].
      clear -BY. induction BY as [|cp x t us (P1 & P2 & P3 & P4) F IH]; [constructor|]. cbn [map]. constructor; [cbn [fst snd]; auto|exact IH].
    + clear -PER. induction PER as [|cp x t us (g & P1 & P2 & P3 & P4 & P5) F IH]; [constructor|]. cbn [map]. constructor; [eauto|exact IH].
Qed.

(** ** More than 255 glyphs *)
Lemma look_zero h (v : Z * (Z * list Z) -> list Z) s : reach s (map (fun q => (tight (fst q), v q)) (number_from 1 (firsts h))) -> code_points s (mk_code 0 1) = None.
Proof.
  intros R. destruct (code_points s (mk_code 0 1)) as [p|] eqn:E; [|reflexivity]. apply (look_iff _ _ _ _ (reach_inv _ _ R)) in E. destruct E as (k & E & ST). apply stands_in in ST.
  apply List.in_map_iff in ST. destruct ST as ([i x] & EQ & X). destruct (number_range _ _ _ _ _ X). injection EQ as <- _. cbn in E. lia.
Qed.
Lemma limits_min (o : list (Z * list Z)) (v : Z * (Z * list Z) -> list Z) s x : Z.of_nat (length o) < 4294967296 -> reach s (map (fun q => (tight (fst q), v q)) (number_from 1 o)) -> In (1, x) (number_from 1 o) ->
  l_min (m_limits s) = 1 /\ 1 <= l_max (m_limits s).
Proof.
  intros B R X. set (ps := map (fun q => (tight (fst q), v q)) (number_from 1 o)) in *.
  assert (SZ : forall q, In q ps -> 1 <= c_size (fst q) <= 4). { intros q Q. apply List.in_map_iff in Q. destruct Q as ([i y] & <- & Q). destruct (number_range _ _ _ _ _ Q) as [Q1 _]. cbn [fst]. apply tight_size. lia. }
  assert (LO : lim_ok (m_limits s) ps) by (apply reach_limits; [exact R|]; apply Forall_forall; intros q Q; pose proof (SZ q Q); lia).
  assert (I1 : In (tight 1, v (1, x)) ps) by (apply List.in_map_iff; exists (1, x); auto).
  destruct LO as (L1 & L2 & _). pose proof (L1 _ I1) as L. cbn [fst] in L. change (c_size (tight 1)) with 1 in L. destruct L2 as [(a & A1 & A2) (b & B1 & B2)]; [intros E; rewrite E in I1; destruct I1|].
  pose proof (SZ a A1). lia.
Qed.
Lemma many f h g cps : history None f h -> countable f -> In (256, (g, cps)) (number_from 1 (firsts h)) ->
  exists g1 cps1 u, In (1, (g1, cps1)) (number_from 1 (firsts h)) /\ In (g, (256, u)) (f_gids f) /\ code_bytes u = [1; 0] /\ read_text f [1; 0] = Ok (filter kept cps1, false) /\ read_cids f [1; 0] = Ok ([1; 0], false).
Proof.
  intros H C X. pose proof (finv_history _ _ _ H C) as FI. destruct (firsts h) as [|[g1 cps1] o] eqn:EO; [destruct X|]. exists g1, cps1, (tight 256).
  assert (X1 : In (1, (g1, cps1)) (number_from 1 (firsts h))) by (rewrite EO; left; reflexivity). rewrite <- EO in X. split; [left; reflexivity|].
  pose proof FI as (_ & L & IF & R & _). split; [apply IF; exists cps; split; [exact X|apply tight_least; lia]|]. split; [reflexivity|].
  destruct (R eq_refl) as [R1 R2]. assert (B : Z.of_nat (length (firsts h)) < 4294967296) by (unfold countable in C; lia).
  destruct (limits_min _ _ _ _ B R1 X1) as [M1 M2]. destruct (limits_min _ _ _ _ B R2 X1) as [M3 M4].
  pose proof (look_zero h _ _ R1) as Z1. pose proof (look_zero h _ _ R2) as Z2.
  destruct (text_stands _ _ _ _ _ FI X1) as [T1 T2]. change (tight 1) with (mk_code 1 1) in *. clear - M1 M2 M3 M4 Z1 Z2 T1 T2.
  assert (NP : forall look l p, l_min l = 1 -> 1 <= l_max l -> look (mk_code 1 1) = Some p -> next_points look l [1; 0] 0 1 = Some (p, [0])).
  { intros look l p A B D. cbn [next_points]. rewrite (proj2 (Z.ltb_ge (l_max l) 1)) by lia. rewrite A, Z.ltb_irrefl. change (Z.lor (Z.shiftl 0 8 mod 4294967296) 1) with 1. rewrite D. reflexivity. }
  assert (NQ : forall look l, l_min l = 1 -> 1 <= l_max l -> look (mk_code 0 1) = None -> next_points look l [0] 0 1 = None).
  { intros look l A B D. cbn [next_points]. rewrite (proj2 (Z.ltb_ge (l_max l) 1)) by lia. rewrite A, Z.ltb_irrefl. change (Z.lor (Z.shiftl 0 8 mod 4294967296) 0) with 0. rewrite D. reflexivity. }
  split.
  - unfold read_text. cbn [length decode]. rewrite (NP _ _ _ M3 M4 T1). rewrite (NQ _ _ M3 M4 Z2). cbn [fallback bind fst snd c_num]. change (filter kept [0]) with (@nil Z). cbn [app]. rewrite app_nil_r. reflexivity.
  - unfold read_cids. cbn [length cids_of]. rewrite (NP _ _ _ M1 M2 T2). rewrite (NQ _ _ M1 M2 Z1). reflexivity.
Qed.
(** ** Strings of any content *)
Lemma next_plain_shorter size : forall bytes num i c rest, next_plain size bytes num i = Some (c, rest) -> (length rest < length bytes)%nat.
Proof.
  induction bytes as [|b r IH]; intros num i c rest E; cbn [next_plain] in E; [discriminate|]. destruct (i =? size); [injection E as _ <-; cbn [length]; lia|]. pose proof (IH _ _ _ _ E). cbn [length]. lia.
Qed.
Lemma cids_total cmap look l : (forall c p, look c = Some p -> length p = 1%nat) -> forall fuel bytes, (length bytes <= fuel)%nat -> exists r, cids_of fuel cmap look l bytes = Ok r.
Proof.
  intros LK. induction fuel as [|n IH]; intros bytes B; destruct bytes as [|b r]; [eexists; reflexivity|cbn in B; lia|eexists; reflexivity|]. cbn [cids_of].
  assert (FA : exists x, (let (c, rest) := fallback l r b 1 in do x <- cids_of n cmap look l rest; Ok (c_num c :: fst x, false)) = Ok x).
  { pose proof (fallback_shorter l r b 1) as S. destruct (fallback l r b 1) as [c rest]. cbn [snd] in S. destruct (IH rest) as [x X]; [cbn in B; lia|]. rewrite X. eexists. reflexivity. }
  destruct cmap.
  - destruct (next_points look l (b :: r) 0 1) as [[cps rest]|] eqn:N; [|exact FA]. pose proof (next_points_shorter _ _ _ _ _ _ _ N) as S.
    assert (LC : length cps = 1%nat). { clear -N LK. revert N. generalize (b :: r) as bs, 0 as num, 1 as i. induction bs as [|x bs IH]; intros num i N; cbn [next_points] in N; [discriminate|].
      destruct (l_max l <? i); [discriminate|]. destruct (i <? l_min l); [exact (IH _ _ N)|]. destruct (look _) as [q|] eqn:Q; [|exact (IH _ _ N)]. injection N as <- _. exact (LK _ _ Q). }
    destruct cps as [|c [|c2 cps]]; try discriminate. destruct (IH rest) as [x X]; [cbn [length] in *; lia|]. rewrite X. eexists. reflexivity.
  - destruct (next_plain (l_max l) (b :: r) 0 1) as [[c rest]|] eqn:N; [|exact FA]. pose proof (next_plain_shorter _ _ _ _ _ _ N) as S.
    destruct (IH rest) as [x X]; [cbn [length] in *; lia|]. rewrite X. eexists. reflexivity.
Qed.
(** ** Requests do not fail *)
Lemma add_total f h gid cps : history None f h -> Z.of_nat (length (f_gids f)) < 4294967295 -> cps <> [] -> exists f' c, add_gid None f gid cps = Ok (f', c).
Proof.
  intros H B NE. assert (FI : finv None f h) by (apply finv_history; [exact H|unfold countable; lia]). unfold add_gid, try_add. destruct (find_gid (f_gids f) gid) as [c|]; [eauto|].
  assert (ID : u32 (u32 (Z.of_nat (length (f_gids f))) + 1) = Z.of_nat (length (f_gids f)) + 1) by (unfold u32; rewrite (Z.mod_small (Z.of_nat _)) by lia; rewrite Z.mod_small; lia).
  rewrite ID, own_tight by lia. cbn [bind]. assert (NZ : (c_size (tight (Z.of_nat (length (f_gids f)) + 1)) =? 0) = false) by (apply Z.eqb_neq; pose proof (tight_size (Z.of_nat (length (f_gids f)) + 1) ltac:(lia)); lia).
  unfold push. rewrite NZ. destruct cps as [|x cps]; [contradiction|]. cbn [bind snd fst]. eauto.
Qed.
(** ** Lengths *)
Definition sum (l : list Z) : Z := fold_right Z.add 0 l.
Lemma total_sum size spacing scale ws : total_length size spacing scale ws = sum (map (glyph_length size spacing scale) ws).
Proof.
  unfold total_length. assert (G : forall a, fold_left (fun a w => a + glyph_length size spacing scale w) ws a = a + sum (map (glyph_length size spacing scale) ws)).
  { induction ws as [|w ws IH]; intros a; cbn [fold_left map sum fold_right]; [lia|]. rewrite IH. unfold sum. lia. }
  rewrite G. lia.
Qed.
(** ** Simple fonts *)
Lemma range_length n : forall f, length (code_range f n) = n.
Proof. induction n as [|n IH]; intros f; cbn; [reflexivity|]. rewrite IH. reflexivity. Qed.
Lemma range_nth (wd : Z -> Z) n d : forall f i, (i < n)%nat -> nth i (map wd (code_range f n)) d = wd (f + Z.of_nat i).
Proof.
  induction n as [|n IH]; intros f i L; [lia|]. destruct i as [|i]; cbn [code_range map nth]; [f_equal; lia|]. rewrite IH by lia. f_equal. lia.
Qed.
Lemma size_mono zero a b : 0 < a -> a <= b -> size_of zero a <= size_of zero b.
Proof.
  intros A B. unfold size_of. destruct (Z.eqb_spec a 0); [lia|]. destruct (Z.eqb_spec b 0); [lia|]. pose proof (Z.log2_le_mono a b B). pose proof (Z.div_le_mono (Z.log2 a) (Z.log2 b) 8 ltac:(lia) ltac:(lia)). lia.
Qed.
Lemma simple_back zero base wd missing first last code : 0 <= first < last -> last < 4294967296 -> (first = 0 -> zero <= size_of zero last) -> 0 <= code < 4294967296 ->
  loaded_width (parsed_limits zero first last) base (simple_widths wd first last) missing code = Ok (if (first <=? code) && (code <=? last) then wd code else missing).
Proof.
  intros F L ZE C. unfold loaded_width, first_char, parsed_limits. rewrite (proj2 (Z.ltb_lt first last)) by lia.
  assert (V : limits_valid (mk_limits (size_of zero first) (size_of zero last) (mk_code first (size_of zero first)) (mk_code last (size_of zero last))) = true).
  { unfold limits_valid. cbn [l_min l_max l_first l_last c_num]. apply andb_true_intro. split; apply Z.leb_le; [lia|]. destruct (Z.eq_dec first 0) as [->|N]; [|apply size_mono; lia]. specialize (ZE eq_refl). unfold size_of at 1. cbn [Z.eqb]. exact ZE. }
  rewrite V. cbn [l_first l_last c_num]. rewrite (proj2 (Z.ltb_ge last first)) by lia. cbn [bind]. unfold simple_widths. rewrite map_length, range_length. f_equal.
  destruct (Z.leb_spec first code) as [A|A]; cbn [andb].
  - assert (U : u32 (code - first) = code - first) by (unfold u32; apply Z.mod_small; lia). rewrite U. destruct (Z.leb_spec code last) as [B|B].
    + rewrite (proj2 (Z.ltb_lt _ _)) by lia. rewrite range_nth by lia. f_equal. lia.
    + rewrite (proj2 (Z.ltb_ge _ _)) by lia. reflexivity.
  - assert (U : u32 (code - first) = code - first + 4294967296) by (unfold u32; rewrite <- (Z.mod_add _ 1) by lia; rewrite Z.mod_small; lia). rewrite U. rewrite (proj2 (Z.ltb_ge _ _)) by lia. reflexivity.
Qed.
Lemma single_lost zero base w missing code : 0 <= c_num (l_first base) -> c_num (l_first base) <= c_num (l_last base) -> c_num (l_first base) < code < 4294967296 ->
  loaded_width (parsed_limits zero code code) base [w] missing code = Ok missing.
Proof.
  intros A0 A B. unfold loaded_width, first_char, parsed_limits. rewrite Z.ltb_irrefl. unfold limits_valid. cbn [l_min l_max]. rewrite andb_false_r. rewrite (proj2 (Z.ltb_ge _ _)) by lia. cbn [bind length].
  unfold u32. rewrite Z.mod_small by lia. rewrite (proj2 (Z.ltb_ge _ _)) by lia. reflexivity.
Qed.
