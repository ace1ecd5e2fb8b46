(** Proofs about the CIDs of subsets. *)
From Coq Require Import Permutation Sorted.
From Verif Require Import Base CodeModel CodeSpec CodeProofs CodePropLemmas CidModel CidSpec CidProofs FontModel FontSpec ChainProofs.
Local Open Scope Z_scope.

(** ** Sorted maps *)
Definition keyed {A : Type} (m : list (Z * A)) : Prop := StronglySorted (fun a b => fst a < fst b) m.
Lemma in_emplace (A : Type) (m : list (Z * A)) k v x : In x (emplace m k v) -> x = (k, v) \/ In x m.
Proof.
  induction m as [|[g c] r IH]; cbn [emplace]; [intros [E|[]]; auto|].
  destruct (k <? g); [intros [E|E]; [auto|right; exact E]|]. destruct (g <? k); [|intros E; right; exact E].
  intros [E|E]; [right; left; exact E|]. destruct (IH E) as [?|?]; [auto|right; right; assumption].
Qed.
Lemma keyed_emplace (A : Type) (m : list (Z * A)) k v : keyed m -> keyed (emplace m k v).
Proof.
  induction m as [|[g c] r IH]; intros K; cbn [emplace]; [repeat constructor|].
  assert (K1 : keyed r) by (inversion K; assumption). assert (K2 : Forall (fun b => g < fst b) r) by (inversion K; assumption).
  destruct (Z.ltb_spec k g) as [L|L].
  - constructor; [exact K|]. constructor; [exact L|]. apply Forall_forall. intros x X. rewrite Forall_forall in K2. specialize (K2 x X). cbn. lia.
  - destruct (Z.ltb_spec g k) as [L2|L2]; [|exact K]. constructor; [exact (IH K1)|]. apply Forall_forall. intros x X.
    destruct (in_emplace A r k v x X) as [->|X1]; [exact L2|]. rewrite Forall_forall in K2. exact (K2 x X1).
Qed.
Lemma emplace_in (A : Type) (m : list (Z * A)) k v x : In x m -> In x (emplace m k v).
Proof.
  induction m as [|[g c] r IH]; intros X; [destruct X|]. cbn [emplace]. destruct (k <? g); [right; exact X|]. destruct (g <? k); [|exact X].
  destruct X as [X|X]; [left; exact X|right; exact (IH X)].
Qed.
Lemma emplace_new (A : Type) (m : list (Z * A)) k v : ~ In k (map fst m) -> In (k, v) (emplace m k v) /\ length (emplace m k v) = S (length m).
Proof.
  induction m as [|[g c] r IH]; cbn [emplace map fst]; intros N; [split; [left; reflexivity|reflexivity]|].
  destruct (Z.ltb_spec k g); [split; [left; reflexivity|reflexivity]|]. destruct (Z.ltb_spec g k) as [L|L].
  - destruct (IH (fun X => N (or_intror X))) as [I1 I2]. split; [right; exact I1|cbn [length]; rewrite I2; reflexivity].
  - destruct N. left. lia.
Qed.
Lemma keyed_unique (A : Type) (m : list (Z * A)) k a b : keyed m -> In (k, a) m -> In (k, b) m -> a = b.
Proof.
  induction m as [|[g c] r IH]; intros K X Y; [destruct X|]. assert (K1 : keyed r) by (inversion K; assumption). assert (K2 : Forall (fun b => g < fst b) r) by (inversion K; assumption).
  rewrite Forall_forall in K2. destruct X as [X|X], Y as [Y|Y].
  - congruence.
  - injection X as E1 _. specialize (K2 _ Y). cbn in K2. lia.
  - injection Y as E1 _. specialize (K2 _ X). cbn in K2. lia.
  - exact (IH K1 X Y).
Qed.
Lemma keyed_same (A : Type) (a : list (Z * A)) : forall b, keyed a -> keyed b -> (forall x, In x a <-> In x b) -> a = b.
Proof.
  induction a as [|x a IH]; intros [|y b] Ka Kb E; [reflexivity|destruct (proj2 (E y)); left; reflexivity|destruct (proj1 (E x)); left; reflexivity|].
  assert (K1 : keyed a) by (inversion Ka; assumption). assert (K2 : Forall (fun z => fst x < fst z) a) by (inversion Ka; assumption).
  assert (K3 : keyed b) by (inversion Kb; assumption). assert (K4 : Forall (fun z => fst y < fst z) b) by (inversion Kb; assumption).
  rewrite Forall_forall in K2, K4.
  assert (XY : x = y). { destruct (proj1 (E x) (or_introl eq_refl)) as [Q|Q]; [auto|]. destruct (proj2 (E y) (or_introl eq_refl)) as [W|W]; [auto|].
    specialize (K2 _ W). specialize (K4 _ Q). lia. }
  subst y. f_equal. apply IH; auto. intros z. split; intros Z0.
  - destruct (proj1 (E z) (or_intror Z0)) as [<-|Q]; [|exact Q]. specialize (K2 _ Z0). lia.
  - destruct (proj2 (E z) (or_intror Z0)) as [<-|Q]; [|exact Q]. specialize (K4 _ Z0). lia.
Qed.
Lemma find_gid_in m g c : keyed m -> (find_gid m g = Some c <-> In (g, c) m).
Proof.
  induction m as [|[k v] r IH]; intros K; cbn [find_gid]; [split; [discriminate|intros []]|].
  assert (K1 : keyed r) by (inversion K; assumption). assert (K2 : Forall (fun b => k < fst b) r) by (inversion K; assumption). rewrite Forall_forall in K2.
  destruct (Z.eqb_spec k g) as [->|N].
  - split; [intros [= ->]; left; reflexivity|]. intros [E|E]; [congruence|]. specialize (K2 _ E). cbn in K2. lia.
  - rewrite (IH K1). split; [intros E; right; exact E|]. intros [E|E]; [congruence|exact E].
Qed.
Lemma find_gid_none m g : find_gid m g = None <-> ~ In g (map fst m).
Proof.
  induction m as [|[k v] r IH]; cbn [find_gid map fst]; [split; [intros _ []|reflexivity]|]. destruct (Z.eqb_spec k g) as [->|N].
  - split; [discriminate|intros X; destruct X; left; reflexivity].
  - rewrite IH. split; [intros X [E|E]; [congruence|exact (X E)]|intros X E; apply X; right; exact E].
Qed.

(** ** Requests *)
Lemma firsts_app_gen h q : forall seen, firsts_after seen (h ++ [q]) = firsts_after seen h ++ if asked (fst q) (seen ++ h) then [] else [q].
Proof.
  induction h as [|x h IH]; intros seen; cbn [app firsts_after].
  - rewrite app_nil_r. destruct (asked (fst q) seen); reflexivity.
  - rewrite IH, <- app_assoc. cbn [app]. destruct (asked (fst x) seen); reflexivity.
Qed.
Lemma firsts_app h q : firsts (h ++ [q]) = firsts h ++ if asked (fst q) h then [] else [q].
Proof. exact (firsts_app_gen h q []). Qed.
Lemma asked_iff g h : asked g h = true <-> In g (map fst h).
Proof.
  unfold asked. rewrite existsb_exists, List.in_map_iff. split; intros (x & A & B).
  - exists x. apply Z.eqb_eq in B. auto.
  - exists x. subst g. split; [exact B|apply Z.eqb_refl].
Qed.
Lemma firsts_same h : forall g, In g (map fst (firsts h)) <-> In g (map fst h).
Proof.
  induction h as [|q h IH] using rev_ind; intros g; [reflexivity|]. rewrite firsts_app, !map_app, !in_app_iff, IH. cbn [map fst In].
  destruct (asked (fst q) h) eqn:A; [|reflexivity]. apply asked_iff in A. split; [intros [X|[]]; auto|]. intros [X|[<-|[]]]; auto.
Qed.
Lemma firsts_nodup h : NoDup (map fst (firsts h)).
Proof.
  induction h as [|q h IH] using rev_ind; [constructor|]. rewrite firsts_app, map_app. destruct (asked (fst q) h) eqn:A; cbn [map].
  - rewrite app_nil_r. exact IH.
  - apply (Permutation_NoDup (l := fst q :: map fst (firsts h))); [apply Permutation_cons_append|]. constructor; [|exact IH].
    rewrite firsts_same, <- asked_iff, A. discriminate.
Qed.
Lemma firsts_length h : (length (firsts h) <= length h)%nat.
Proof. induction h as [|q h IH] using rev_ind; [constructor|]. rewrite firsts_app, !app_length. destruct (asked (fst q) h); cbn [length]; lia. Qed.
Lemma number_app (A : Type) (l m : list A) : forall n, number_from n (l ++ m) = number_from n l ++ number_from (n + Z.of_nat (length l)) m.
Proof.
  induction l as [|x l IH]; intros n; cbn [app number_from length]; [f_equal; lia|]. rewrite IH. do 3 f_equal. lia.
Qed.
Lemma number_range (A : Type) (l : list A) : forall n i x, In (i, x) (number_from n l) -> n <= i < n + Z.of_nat (length l) /\ In x l.
Proof.
  induction l as [|y l IH]; intros n i x; cbn [number_from length]; [intros []|]. intros [E|E].
  - injection E as <- <-. split; [lia|left; reflexivity].
  - destruct (IH _ _ _ E) as [A1 A2]. split; [lia|right; exact A2].
Qed.
Lemma number_keyed (A : Type) (l : list A) : forall n, keyed (number_from n l).
Proof.
  induction l as [|y l IH]; intros n; cbn [number_from]; [constructor|]. constructor; [apply IH|]. apply Forall_forall. intros [i x] X.
  destruct (number_range A l _ _ _ X) as [X1 _]. cbn. lia.
Qed.
Lemma number_snd (A : Type) (l : list A) : forall n, map snd (number_from n l) = l.
Proof. induction l as [|y l IH]; intros n; cbn [number_from map snd]; [reflexivity|]. rewrite IH. reflexivity. Qed.
Lemma number_in (A : Type) (l : list A) x : forall n, In x l -> exists i, In (i, x) (number_from n l).
Proof. intros n X. rewrite <- (number_snd A l n) in X. apply List.in_map_iff in X. destruct X as ([i y] & E & Y). cbn in E. subst y. exists i. exact Y. Qed.

(** ** Codes of CIDs *)
Definition tight (id : Z) : code := mk_code id (Z.log2 id / 8 + 1).
Lemma own_tight id : 0 < id -> own_code id = Ok (tight id).
Proof. intros P. unfold own_code, char_code_size. destruct (Z.eqb_spec id 0); [lia|]. reflexivity. Qed.
Lemma tight_least id : 0 < id -> least_code id (tight id).
Proof.
  intros P. unfold least_code, tight. cbn [c_num c_size]. pose proof (Z.log2_nonneg id). pose proof (Z.log2_spec id P) as [A B].
  pose proof (Z.div_mod (Z.log2 id) 8 ltac:(lia)) as D. pose proof (Z.mod_pos_bound (Z.log2 id) 8 ltac:(lia)) as M. assert (0 <= Z.log2 id / 8) by (apply Z.div_pos; lia).
  split; [reflexivity|]. split; [lia|]. replace 256 with (2 ^ 8) by reflexivity. rewrite <- !Z.pow_mul_r by lia. split.
  - eapply Z.le_trans; [|exact A]. apply Z.pow_le_mono_r; lia.
  - eapply Z.lt_le_trans; [exact B|]. apply Z.pow_le_mono_r; lia.
Qed.
Lemma least_unique id u v : least_code id u -> least_code id v -> u = v.
Proof.
  intros (A1 & A2 & A3) (B1 & B2 & B3). destruct u as [a s], v as [b t]; cbn [c_num c_size] in *. subst a b. f_equal.
  destruct (Z.lt_trichotomy s t) as [L|[L|L]]; [|exact L|].
  - pose proof (Z.pow_le_mono_r 256 s (t - 1) ltac:(lia) ltac:(lia)). lia.
  - pose proof (Z.pow_le_mono_r 256 t (s - 1) ltac:(lia) ltac:(lia)). lia.
Qed.
Lemma tight_small id : 0 < id < 256 -> tight id = mk_code id 1.
Proof. intros P. symmetry. apply (least_unique id); [|apply tight_least; lia]. unfold least_code. cbn [c_num c_size]. cbn. lia. Qed.
Lemma tight_size id : 0 < id < 4294967296 -> 1 <= c_size (tight id) <= 4.
Proof.
  intros P. destruct (tight_least id ltac:(lia)) as (_ & A & B). split; [exact A|]. destruct (Z_le_gt_dec (c_size (tight id)) 4) as [L|L]; [exact L|].
  pose proof (Z.pow_le_mono_r 256 4 (c_size (tight id) - 1) ltac:(lia) ltac:(lia)). change (256 ^ 4) with 4294967296 in *. lia.
Qed.

(** ** The invariant *)
Definition cid_pushes (o : list (Z * list Z)) : list (code * list Z) := map (fun q => (tight (fst q), [fst q])) (number_from 1 o).
Definition text_pushes (o : list (Z * list Z)) : list (code * list Z) := map (fun q => (tight (fst q), snd (snd q))) (number_from 1 o).
Definition finv (enc : option (list Z -> option code)) (f : font) (h : list (Z * list Z)) : Prop :=
  keyed (f_gids f) /\ length (f_gids f) = length (firsts h) /\
  (forall g id u, In (g, (id, u)) (f_gids f) <-> exists cps, In (id, (g, cps)) (number_from 1 (firsts h)) /\ code_of_glyph enc id cps u) /\
  (enc = None -> reach (f_cids f) (cid_pushes (firsts h)) /\ reach (f_text f) (text_pushes (firsts h))) /\
  (forall cps, In cps (map snd (firsts h)) -> cps <> [] \/ enc <> None).
Lemma in_gids enc f h g : finv enc f h -> In g (map fst (f_gids f)) <-> In g (map fst h).
Proof.
  intros (K & L & I & _ & _). rewrite <- firsts_same. split; intros X; apply List.in_map_iff in X.
  - destruct X as ([g' [id u]] & E & X). cbn in E. subst g'. apply I in X. destruct X as (cps & X & _). destruct (number_range _ _ _ _ _ X) as [_ Y].
    apply List.in_map_iff. exists (g, cps). split; [reflexivity|exact Y].
  - destruct X as ([g' cps] & E & X). cbn in E. subst g'.
    destruct (find_gid (f_gids f) g) as [c|] eqn:F; [apply (find_gid_in _ _ _ K) in F; apply List.in_map_iff; exists (g, c); auto|].
    exfalso. apply find_gid_none in F. assert (LT : (length (map fst (f_gids f)) < length (map fst (firsts h)))%nat); [|rewrite !map_length in LT; lia].
    assert (SU : incl (map fst (f_gids f)) (map fst (firsts h))). { intros y Y. apply List.in_map_iff in Y. destruct Y as ([y' [id u]] & E & Y). cbn in E. subst y'. apply I in Y.
      destruct Y as (cps' & Y & _). destruct (number_range _ _ _ _ _ Y) as [_ Y2]. apply List.in_map_iff. exists (y, cps'). auto. }
    assert (ND : NoDup (g :: map fst (f_gids f))). { constructor; [exact F|]. clear -K. induction (f_gids f) as [|[k v] r IH]; [constructor|]. cbn [map fst].
      assert (K1 : keyed r) by (inversion K; assumption). assert (K2 : Forall (fun b => k < fst b) r) by (inversion K; assumption). rewrite Forall_forall in K2.
      constructor; [|exact (IH K1)]. intros X. apply List.in_map_iff in X. destruct X as (x & E & X). specialize (K2 x X). cbn in K2. lia. }
    pose proof (NoDup_incl_length ND (l' := map fst (firsts h))) as LE. cbn [length] in LE. apply LE. intros y [<-|Y]; [apply List.in_map_iff; exists (g, cps); auto|exact (SU y Y)].
Qed.
Lemma find_asked enc f h g : finv enc f h -> (exists c, find_gid (f_gids f) g = Some c) <-> asked g h = true.
Proof.
  intros F. rewrite asked_iff, <- (in_gids enc f h g F). split.
  - intros (c & E). destruct (in_dec Z.eq_dec g (map fst (f_gids f))) as [Y|N]; [exact Y|]. apply find_gid_none in N. congruence.
  - intros X. destruct (find_gid (f_gids f) g) as [c|] eqn:E; [eauto|]. apply find_gid_none in E. contradiction.
Qed.
Lemma add_grows enc f gid cps f' c : add_gid enc f gid cps = Ok (f', c) -> find_gid (f_gids f) gid = None -> length (f_gids f') = S (length (f_gids f)).
Proof.
  intros E F. unfold add_gid in E. rewrite F in E. pose proof F as FN. apply find_gid_none in FN. apply bind_ok in E. destruct E as (r & E & E2). unfold try_add in E. destruct enc as [look|].
  - destruct (look cps) as [u|]; [|apply ok_inj in E; subst r; discriminate]. rewrite F in E. apply ok_inj in E. subst r. cbn [fst snd] in E2. apply ok_inj in E2. injection E2 as <- _. cbn [f_gids]. apply emplace_new. exact FN.
  - apply bind_ok in E. destruct E as (u & _ & E). rewrite F in E. apply bind_ok in E. destruct E as (cm & _ & E). apply bind_ok in E. destruct E as (tm & _ & E). apply ok_inj in E. subst r.
    cbn [fst snd] in E2. apply ok_inj in E2. injection E2 as <- _. cbn [f_gids]. apply emplace_new. exact FN.
Qed.
Lemma add_mono enc f gid cps f' c : add_gid enc f gid cps = Ok (f', c) -> (length (f_gids f) <= length (f_gids f'))%nat.
Proof.
  intros E. destruct (find_gid (f_gids f) gid) eqn:F; [|rewrite (add_grows _ _ _ _ _ _ E F); lia]. unfold add_gid in E. rewrite F in E. apply ok_inj in E. injection E as <- _. lia.
Qed.
Lemma finv_add enc f h gid cps f' c : finv enc f h -> countable f' -> add_gid enc f gid cps = Ok (f', c) ->
  finv enc f' (h ++ [(gid, cps)]) /\ In (gid, c) (f_gids f') /\ (forall x, In x (f_gids f) -> In x (f_gids f')).
Proof.
  intros FI B0 E. pose proof (add_grows enc f gid cps f' c E) as GR. unfold add_gid in E. destruct (find_gid (f_gids f) gid) as [c0|] eqn:F.
  - apply ok_inj in E. injection E as <- <-. assert (A : asked gid h = true) by (apply (find_asked enc f h gid FI); eauto).
    assert (Q : firsts (h ++ [(gid, cps)]) = firsts h) by (rewrite firsts_app; cbn [fst]; rewrite A; apply app_nil_r).
    destruct FI as (K & R). split; [|split; [apply (find_gid_in _ _ _ K) in F; exact F|auto]]. unfold finv. rewrite Q. exact (conj K R).
  - assert (A : asked gid h = false). { destruct (asked gid h) eqn:A; [|reflexivity]. apply (find_asked enc f h gid FI) in A. destruct A as [x A]. congruence. }
    assert (Q : firsts (h ++ [(gid, cps)]) = firsts h ++ [(gid, cps)]) by (rewrite firsts_app; cbn [fst]; rewrite A; reflexivity).
    destruct FI as (K & L & I & R & P). assert (B : Z.of_nat (length (firsts h)) < 4294967295) by (unfold countable in B0; rewrite <- L; pose proof (GR eq_refl); lia).
    apply bind_ok in E. destruct E as (r & E & E2).
    assert (ID : u32 (u32 (Z.of_nat (length (f_gids f))) + 1) = Z.of_nat (length (firsts h)) + 1). { rewrite L. unfold u32. rewrite (Z.mod_small (Z.of_nat _)) by lia. rewrite Z.mod_small; lia. }
    pose proof F as FN. apply find_gid_none in FN.
    assert (G : forall id u, id = Z.of_nat (length (firsts h)) + 1 -> code_of_glyph enc id cps u -> forall g id' u', In (g, (id', u')) (emplace (f_gids f) gid (id, u)) <->
              exists cps', In (id', (g, cps')) (number_from 1 (firsts h ++ [(gid, cps)])) /\ code_of_glyph enc id' cps' u').
    { intros id u IDE CG g id' u'. assert (U : forall u2, code_of_glyph enc id cps u2 -> u2 = u).
      { intros u2 C2. unfold code_of_glyph in *. destruct enc as [look|]; [congruence|exact (least_unique id u2 u C2 CG)]. }
      rewrite number_app. split.
      - intros X. destruct (in_emplace _ _ _ _ _ X) as [X1|X1].
        + injection X1 as -> -> ->. exists cps. split; [|exact CG]. apply in_app_iff. right. left. f_equal. lia.
        + apply I in X1. destruct X1 as (cps' & X1 & X2). exists cps'. split; [|exact X2]. apply in_app_iff. left. exact X1.
      - intros (cps' & X1 & X2). apply in_app_iff in X1. destruct X1 as [X1|X1].
        + apply emplace_in. apply I. eauto.
        + cbn [number_from In] in X1. destruct X1 as [X1|[]]. pose proof (f_equal fst X1) as E3. pose proof (f_equal snd X1) as E4. cbn [fst snd] in E3, E4. injection E4 as <- <-. assert (Ei : id' = id) by lia. rewrite Ei in X2 |- *. rewrite (U u' X2). apply emplace_new. exact FN. }
    unfold try_add in E. rewrite ID in E. destruct enc as [look|].
    + destruct (look cps) as [u|] eqn:LO; [|apply ok_inj in E; subst r; discriminate]. rewrite F in E. apply ok_inj in E. subst r. cbn [fst snd] in E2. apply ok_inj in E2. injection E2 as <- <-.
      cbn [f_gids]. split; [|split; [apply emplace_new; exact FN|intros x; apply emplace_in]]. unfold finv. rewrite Q. cbn [f_gids f_cids f_text].
      split; [apply keyed_emplace; exact K|]. split; [rewrite (proj2 (emplace_new _ _ gid (Z.of_nat (length (firsts h)) + 1, u) FN)), app_length, L; cbn [length]; lia|].
      split; [apply G; [reflexivity|exact LO]|]. split; [discriminate|]. intros cps' _. right. discriminate.
    + rewrite own_tight in E by lia. cbn [bind] in E. rewrite F in E. apply bind_ok in E. destruct E as (cm & E3 & E). apply bind_ok in E. destruct E as (tm & E4 & E).
      apply ok_inj in E. subst r. cbn [fst snd] in E2. apply ok_inj in E2. injection E2 as <- <-.
      cbn [f_gids]. split; [|split; [apply emplace_new; exact FN|intros x; apply emplace_in]]. unfold finv. rewrite Q. cbn [f_gids f_cids f_text].
      set (id := Z.of_nat (length (firsts h)) + 1) in *.
      split; [apply keyed_emplace; exact K|]. split; [rewrite (proj2 (emplace_new _ _ gid (id, tight id) FN)), app_length, L; cbn [length]; lia|].
      split; [apply G; [reflexivity|apply tight_least; subst id; lia]|]. split.
      * intros _. destruct (R eq_refl) as [R1 R2]. unfold cid_pushes, text_pushes. rewrite number_app, !map_app. cbn [number_from map fst snd].
        replace (1 + Z.of_nat (length (firsts h))) with id by (subst id; lia). split; [exact (R_push _ _ _ _ _ R1 E3)|exact (R_push _ _ _ _ _ R2 E4)].
      * intros cps' X. rewrite map_app, in_app_iff in X. destruct X as [X|[<-|[]]]; [exact (P _ X)|]. cbn [snd]. left. intros ->. discriminate E4.
Qed.
Lemma finv_new enc : finv enc new_font [].
Proof. split; [constructor|]. split; [reflexivity|]. split; [intros g id u; split; [intros []|intros (cps & [] & _)]|]. split; [intros _; split; constructor|]. intros cps []. Qed.
Lemma grows_mono enc f0 f h : grows enc f0 f h -> (length (f_gids f0) <= length (f_gids f))%nat.
Proof. induction 1 as [|f h gid cps f' c H IH E]; [lia|]. pose proof (add_mono _ _ _ _ _ _ E). lia. Qed.
Lemma finv_grows enc f0 h0 f h : grows enc f0 f h -> finv enc f0 h0 -> countable f -> finv enc f (h0 ++ h) /\ (forall x, In x (f_gids f0) -> In x (f_gids f)).
Proof.
  intros H F0. induction H as [|f h gid cps f' c H IH E]; intros B; [rewrite app_nil_r; auto|].
  assert (B1 : countable f) by (unfold countable in *; pose proof (add_mono _ _ _ _ _ _ E); lia). destruct (IH B1) as [I1 I2].
  destruct (finv_add enc f (h0 ++ h) gid cps f' c I1 B E) as (J1 & _ & J2). rewrite app_assoc. split; [exact J1|auto].
Qed.
Lemma finv_history enc f h : history enc f h -> countable f -> finv enc f h.
Proof. intros H B. exact (proj1 (finv_grows enc new_font [] f h H (finv_new enc) B)). Qed.
Lemma subset_map_in m : forall acc, keyed acc -> keyed (fold_left (fun r p => emplace r (fst (snd p)) (fst p)) m acc) /\
  (NoDup (map fst acc ++ map (fun p : Z * (Z * code) => fst (snd p)) m) -> forall x, In x (fold_left (fun r p => emplace r (fst (snd p)) (fst p)) m acc) <-> In x acc \/ exists u, In (snd x, (fst x, u)) m).
Proof.
  induction m as [|[g [id u]] m IH]; intros acc K; cbn [fold_left map fst snd].
  - split; [exact K|]. intros _ x. split; [auto|]. intros [X|(u & [])]. exact X.
  - destruct (IH (emplace acc id g) (keyed_emplace _ _ _ _ K)) as [I1 I2]. split; [exact I1|]. intros ND x.
    assert (NI : ~ In id (map fst acc)). { intros X. apply NoDup_remove_2 in ND. apply ND. apply in_app_iff. auto. }
    rewrite I2.
    + split.
      * intros [X|(u' & X)]; [|right; exists u'; right; exact X]. destruct (in_emplace _ _ _ _ _ X) as [->|X1]; [right; exists u; left; reflexivity|left; exact X1].
      * intros [X|(u' & [X|X])]; [left; apply emplace_in; exact X| |right; eauto]. left. destruct x as [a b]. cbn [fst snd] in X. injection X as -> -> _. apply emplace_new. exact NI.
    + refine (Permutation_NoDup _ ND). assert (P : Permutation (map fst (emplace acc id g)) (id :: map fst acc)).
      { clear -NI. induction acc as [|[k v] r IH]; [reflexivity|]. cbn [emplace map fst] in *. destruct (Z.ltb_spec id k); [reflexivity|]. destruct (Z.ltb_spec k id).
        - cbn [map fst]. etransitivity; [apply perm_skip; exact (IH (fun X => NI (or_intror X)))|]. apply perm_swap.
        - destruct NI. left. lia. }
      symmetry. etransitivity; [apply Permutation_app_tail; exact P|]. cbn [app]. apply Permutation_middle.
Qed.
Lemma finv_ids enc f h : finv enc f h -> NoDup (subset_cids (f_gids f)).
Proof.
  intros (K & L & I & _). unfold subset_cids.
  assert (INJ : forall x y, In x (f_gids f) -> In y (f_gids f) -> fst (snd x) = fst (snd y) -> x = y).
  { intros [g [i u]] [g' [i' u']] X Y E. cbn in E. subst i'. pose proof X as X0. apply I in X. apply I in Y. destruct X as (c1 & X & X2), Y as (c2 & Y & Y2).
    pose proof (keyed_unique _ _ _ _ _ (number_keyed _ (firsts h) 1) X Y) as E. injection E as <- <-.
    unfold code_of_glyph in *. destruct enc as [look|]; [|rewrite (least_unique _ _ _ X2 Y2); reflexivity]. congruence. }
  assert (ND : NoDup (f_gids f)). { clear -K. induction (f_gids f) as [|[k v] r IH]; [constructor|]. assert (K1 : keyed r) by (inversion K; assumption).
    assert (K2 : Forall (fun b => k < fst b) r) by (inversion K; assumption). rewrite Forall_forall in K2. constructor; [|exact (IH K1)]. intros X. specialize (K2 _ X). cbn in K2. lia. }
  clear -INJ ND. induction (f_gids f) as [|x r IH]; [constructor|]. cbn [map]. assert (ND1 : NoDup r) by (inversion ND; assumption). assert (ND2 : ~ In x r) by (inversion ND; assumption).
  constructor; [|apply IH; [|exact ND1]; intros a b A B; apply INJ; right; assumption]. intros X. apply List.in_map_iff in X. destruct X as (y & E & Y).
  rewrite (INJ y x (or_intror Y) (or_introl eq_refl) E) in Y. contradiction.
Qed.
Lemma number_keyed_map (o : list (Z * list Z)) : forall n, keyed (map (fun q => (fst q, fst (snd q))) (number_from n o)).
Proof.
  induction o as [|x o IH]; intros n; cbn [number_from map]; [constructor|]. constructor; [apply IH|]. apply Forall_forall. intros y Y.
  apply List.in_map_iff in Y. destruct Y as ([i z] & <- & Y). destruct (number_range _ _ _ _ _ Y). cbn. lia.
Qed.
Lemma subset_map_ok enc f h : finv enc f h -> subset_map (f_gids f) = map (fun q => (fst q, fst (snd q))) (number_from 1 (firsts h)).
Proof.
  intros FI. pose proof (finv_ids enc f h FI) as ND. destruct FI as (K & L & I & R & P). destruct (subset_map_in (f_gids f) [] ltac:(constructor)) as [S1 S2]. apply keyed_same.
  - exact S1.
  - apply number_keyed_map.
  - intros [id g]. unfold subset_map. rewrite (S2 ND). cbn [fst snd]. rewrite List.in_map_iff. split.
    + intros [[]|(u & X)]. apply I in X. destruct X as (cps & X & _). exists (id, (g, cps)). auto.
    + intros ([i [g' cps]] & E & X). cbn [fst snd] in E. injection E as -> ->. right.
      assert (G : In g (map fst (f_gids f))). { apply (in_gids enc f h g (conj K (conj L (conj I (conj R P))))). apply firsts_same. destruct (number_range _ _ _ _ _ X) as [_ Y]. apply List.in_map_iff. exists (g, cps). auto. }
      apply List.in_map_iff in G. destruct G as ([g1 [id1 u]] & E & G). cbn in E. subst g1. exists u. pose proof G as G0. apply I in G. destruct G as (cps1 & G & _).
      assert (E : (id, cps) = (id1, cps1)); [|congruence]. clear -X G. pose proof (firsts_nodup h) as ND. revert X G ND. generalize 1. induction (firsts h) as [|[k c] o IH]; intros n X G ND; [destruct X|].
      cbn [number_from In map fst] in *. assert (ND1 : NoDup (map fst o)) by (inversion ND; assumption). assert (ND2 : ~ In k (map fst o)) by (inversion ND; assumption).
      assert (NN : forall i c, In (i, (g, c)) (number_from (n + 1) o) -> k <> g). { intros i c0 Y ->. apply ND2. destruct (number_range _ _ _ _ _ Y) as [_ Y2]. apply List.in_map_iff. exists (g, c0). auto. }
      destruct X as [X|X], G as [G|G]; [congruence| | |exact (IH _ X G ND1)].
      * injection X as _ E _. destruct (NN _ _ G E).
      * injection G as _ E _. destruct (NN _ _ X E).
Qed.
