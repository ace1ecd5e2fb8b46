(** Lemmas on lists of differences, reverse maps and names. *)
From Coq Require Import Lia String.
From Verif Require Import Base TokModel ObjSpec CodeModel CodeSpec CodeProofs CodePropLemmas FontModel DiffTables DiffModel DiffSpec ChainProofs.
Local Open Scope Z_scope.

(** ** The list *)
Lemma find_put l c v d lo hi : ascending lo hi l -> find_diff (put_diff l c v) d = if d =? c then Some v else find_diff l d.
Proof.
  revert lo. induction l as [|[k w] l IH]; intros lo A; cbn [put_diff find_diff].
  - rewrite (Z.eqb_sym c d). reflexivity.
  - cbn in A. destruct A as (A1 & A2 & A3). destruct (Z.ltb_spec c k); [|destruct (Z.eqb_spec c k)]; cbn [find_diff].
    + rewrite (Z.eqb_sym c d). reflexivity.
    + subst k. rewrite (Z.eqb_sym c d). destruct (Z.eqb_spec d c); reflexivity.
    + rewrite (IH _ A3). destruct (Z.eqb_spec k d), (Z.eqb_spec d c); try reflexivity; lia.
Qed.
Lemma put_ascending l c v : forall lo hi, ascending lo hi l -> lo <= c <= hi -> ascending lo hi (put_diff l c v).
Proof.
  induction l as [|[k w] l IH]; intros lo hi A B; cbn in *; [lia|]. destruct A as (A1 & A2 & A3).
  destruct (Z.ltb_spec c k); [|destruct (Z.eqb_spec c k)]; cbn.
  - repeat split; try lia. exact A3.
  - subst. repeat split; try lia. exact A3.
  - repeat split; try lia. apply IH; [exact A3|lia].
Qed.
Lemma find_low {A} l c : forall lo hi, @ascending A lo hi l -> c < lo -> forall w, ~ In (c, w) l.
Proof.
  induction l as [|[k w] l IH]; intros lo hi X B v I; [destruct I|]. cbn in X. destruct X as (X1 & X2 & X3). destruct I as [E|I]; [injection E as -> _; lia|].
  exact (IH (k + 1) hi X3 ltac:(lia) _ I).
Qed.
Lemma find_in l c v : forall lo hi, ascending lo hi l -> find_diff l c = Some v <-> In (c, v) l.
Proof.
  induction l as [|[k w] l IH]; intros lo hi A; [cbn; split; [discriminate|tauto]|]. cbn in A. destruct A as (A1 & A2 & A3). cbn [find_diff In].
  destruct (Z.eqb_spec k c).
  - subst k. split; [intros E; injection E as ->; left; reflexivity|]. intros [E|I]; [injection E as ->; reflexivity|]. exfalso. exact (find_low _ c _ _ A3 ltac:(lia) _ I).
  - rewrite (IH _ _ A3). split; [tauto|]. intros [E|I]; [injection E as E _; lia|exact I].
Qed.
Lemma ascending_range {A} l : forall lo hi c (v : A), ascending lo hi l -> In (c, v) l -> lo <= c <= hi.
Proof.
  induction l as [|[k w] l IH]; intros lo hi c v X I; [destruct I|]. cbn in X. destruct X as (X1 & X2 & X3). destruct I as [E|I]; [injection E as -> _; lia|].
  specialize (IH _ _ _ _ X3 I). lia.
Qed.

(** ** Reading *)
Fixpoint cur_after (cur : Z) (arr : list obj) : Z :=
  match arr with [] => cur | ONum v :: r => cur_after v r | OName _ :: r => cur_after (cur + 1) r | _ :: r => cur_after cur r end.
Lemma read_app ex : forall a cur l b, read_diffs ex cur l (a ++ b) = (do m <- read_diffs ex cur l a; read_diffs ex (cur_after cur a) m b).
Proof.
  induction a as [|o a IH]; intros cur l b; [reflexivity|]. cbn [app]. destruct o; cbn [read_diffs cur_after]; try apply IH.
  destruct (add_name ex l (cur mod 256) n); cbn [bind]; try reflexivity. destruct (cur =? 2 ^ 63 - 1); [reflexivity|]. apply IH.
Qed.
Lemma cur_app : forall a cur b, cur_after cur (a ++ b) = cur_after (cur_after cur a) b.
Proof. induction a as [|o a IH]; intros cur b; [reflexivity|]. destruct o; cbn [app cur_after]; apply IH. Qed.
Lemma names_in_app a b : names_in (a ++ b) = names_in a + names_in b.
Proof. unfold names_in. rewrite filter_app, app_length. lia. Qed.
Lemma names_one o : names_in [o] = if is_name o then 1 else 0.
Proof. destruct o; reflexivity. Qed.
Lemma cur_no_number : forall q cur, no_number q -> cur_after cur q = cur + names_in q.
Proof.
  induction q as [|o q IH]; intros cur N; [unfold names_in; cbn; lia|]. assert (N2 : no_number q) by (intros z I; exact (N z (or_intror I))).
  change (o :: q) with ([o] ++ q). rewrite names_in_app. destruct o as [|b|z|m k|n|h s|n g|a|d]; cbn [app cur_after]; rewrite ?(IH _ N2), names_one; cbn [is_name]; try lia.
  destruct (N z (or_introl eq_refl)).
Qed.
Lemma next_number p z : next_of (p ++ [ONum z]) z.
Proof. assert (X : next_of (p ++ [ONum z]) (z + names_in [])) by (apply N_after; intros y []). unfold names_in in X. cbn in X. rewrite Z.add_0_r in X. exact X. Qed.
Lemma next_cur pre k : next_of pre k <-> k = cur_after (-1) pre.
Proof.
  split.
  - intros H. destruct H as [p v q N|q N].
    + rewrite cur_app. cbn [cur_after]. rewrite (cur_no_number _ _ N). reflexivity.
    + rewrite (cur_no_number _ _ N). reflexivity.
  - intros ->. induction pre as [|o pre IH] using rev_ind.
    + cbn. change (-1) with (-1 + names_in []). apply N_none. intros z I. exact I.
    + rewrite cur_app. inversion IH as [p v q N E1 E2|q N E1 E2].
      * assert (G : forall x, (forall z, x <> ONum z) -> next_of ((p ++ ONum v :: q) ++ [x]) (v + names_in (q ++ [x]))).
        { intros x X. rewrite <- app_assoc. cbn [app]. apply N_after. intros z I. apply in_app_or in I. destruct I as [I|[I|[]]]; [exact (N z I)|exact (X z I)]. }
        destruct o as [|b|z|m k|n|h s|n g|a|d]; cbn [cur_after];
          try (match goal with |- next_of (_ ++ [?x]) _ => assert (GG := G x ltac:(intros; discriminate)); rewrite names_in_app, names_one in GG; cbn [is_name] in GG; rewrite ?Z.add_0_r in GG; rewrite ?Z.add_assoc in GG; exact GG end).
        apply next_number.
      * assert (G : forall x, (forall z, x <> ONum z) -> next_of (pre ++ [x]) (-1 + names_in (pre ++ [x]))).
        { intros x X. apply N_none. intros z I. apply in_app_or in I. destruct I as [I|[I|[]]]; [exact (N z I)|exact (X z I)]. }
        destruct o as [|b|z|m k|n|h s|n g|a|d]; cbn [cur_after];
          try (match goal with |- next_of (_ ++ [?x]) _ => assert (GG := G x ltac:(intros; discriminate)); rewrite names_in_app, names_one in GG; cbn [is_name] in GG; rewrite ?Z.add_0_r in GG; rewrite ?Z.add_assoc in GG; exact GG end).
        apply next_number.
Qed.

(** What an entry has to do with its name *)
Definition meant (ex : bool) (c : Z) (n : list Z) (cp : Z) : Prop := if ex then cp = c else name_point n = Ok cp.
Lemma add_name_ok ex l c n m : add_name ex l c n = Ok m -> exists cp, meant ex c n cp /\ m = put_diff l c (n, cp).
Proof.
  unfold add_name, meant. destruct ex; [intros E; apply ok_inj in E; subst; eauto|]. intros E. apply bind_ok in E. destruct E as (cp & E1 & E2). apply ok_inj in E2. subst. eauto.
Qed.
Definition read_ok (ex : bool) (arr : list obj) (l : diffs) : Prop :=
  ascending 0 255 l /\ forall c n cp, In (c, (n, cp)) l <-> told arr c n /\ meant ex c n cp.
Lemma meant_fun ex c n a b : meant ex c n a -> meant ex c n b -> a = b.
Proof. unfold meant. destruct ex; [congruence|]. intros E F. rewrite E in F. apply ok_inj in F. exact F. Qed.
Lemma told_nil c n : ~ told [] c n.
Proof. intros (p & q & k & E & _). destruct p; discriminate. Qed.
Lemma last_split {A} (arr : list A) o pre x post : arr ++ [o] = pre ++ x :: post -> (post = [] /\ pre = arr /\ x = o) \/ exists post', post = post' ++ [o] /\ arr = pre ++ x :: post'.
Proof.
  intros E. destruct post as [|y post] using rev_ind.
  - apply app_inj_tail in E. destruct E as [E1 E2]. left. split; [reflexivity|]. split; [symmetry; exact E1|symmetry; exact E2].
  - clear IHpost. rewrite app_comm_cons, app_assoc in E. apply app_inj_tail in E. destruct E as [E1 E2]. subst y. right. exists post. split; [reflexivity|exact E1].
Qed.
Lemma told_other arr o c n : is_name o = false -> told (arr ++ [o]) c n <-> told arr c n.
Proof.
  intros NN. split; intros (p & q & k & E & N & C & L).
  - apply last_split in E. destruct E as [(_ & _ & <-)|(q' & E1 & E2)]; [discriminate|]. exists p, q', k. repeat split; try assumption.
    intros p2 m q2 k2 F. subst arr. apply (L p2 m (q2 ++ [o]) k2). rewrite F, <- app_assoc. reflexivity.
  - exists p, (q ++ [o]), k. split; [rewrite E, <- app_assoc; reflexivity|]. repeat split; try assumption.
    intros p2 m q2 k2 F. apply last_split in F. destruct F as [(_ & _ & <-)|(q' & F1 & F2)]; [discriminate|]. exact (L _ _ _ _ F2).
Qed.
Lemma told_name arr m c n : told (arr ++ [OName m]) c n <-> (if c =? cur_after (-1) arr mod 256 then n = m else told arr c n).
Proof.
  destruct (Z.eqb_spec c (cur_after (-1) arr mod 256)) as [EC|EC]; split.
  - intros (p & q & k & E & N & C & L). apply last_split in E. destruct E as [(_ & _ & E)|(q' & E1 & E2)]; [injection E as ->; reflexivity|].
    exfalso. apply (L arr m [] (cur_after (-1) arr)); [reflexivity| |apply next_cur; reflexivity|symmetry; exact EC]. subst arr. rewrite app_length. cbn. lia.
  - intros ->. exists arr, [], (cur_after (-1) arr). repeat split; [apply next_cur; reflexivity|exact EC|]. intros p2 m2 q2 k2 F B. apply (f_equal (@length _)) in F. rewrite !app_length in F. cbn in F. lia.
  - intros (p & q & k & E & N & C & L). apply last_split in E. destruct E as [(_ & E & _)|(q' & E1 & E2)].
    + subst p. apply next_cur in N. subst k. contradiction.
    + exists p, q', k. repeat split; try assumption. intros p2 m2 q2 k2 F. apply (L p2 m2 (q2 ++ [OName m]) k2). rewrite F, <- app_assoc. reflexivity.
  - intros (p & q & k & E & N & C & L). exists p, (q ++ [OName m]), k. split; [rewrite E, <- app_assoc; reflexivity|]. repeat split; try assumption.
    intros p2 m2 q2 k2 F B N2. apply last_split in F. destruct F as [(_ & F & _)|(q' & F1 & F2)]; [|exact (L _ _ _ _ F2 B N2)].
    subst p2. apply next_cur in N2. subst k2. intros X. apply EC. symmetry. exact X.
Qed.
Lemma read_meaning ex : forall arr l, read_diffs ex (-1) [] arr = Ok l -> read_ok ex arr l.
Proof.
  induction arr as [|o arr IH] using rev_ind; intros l E.
  - cbn in E. apply ok_inj in E. subst l. split; [exact I|]. intros c n cp. split; [intros []|]. intros [T _]. destruct (told_nil _ _ T).
  - rewrite read_app in E. apply bind_ok in E. destruct E as (l0 & E1 & E2). specialize (IH _ E1). destruct IH as [A B].
    destruct (is_name o) eqn:NO.
    + destruct o; try discriminate. cbn [read_diffs] in E2. apply bind_ok in E2. destruct E2 as (l1 & E2 & E3). destruct (cur_after (-1) arr =? 2 ^ 63 - 1); [discriminate|]. apply ok_inj in E3. subst l1.
      apply add_name_ok in E2. destruct E2 as (cp0 & M & ->). set (c0 := cur_after (-1) arr mod 256) in *. assert (R : 0 <= c0 <= 255) by (unfold c0; pose proof (Z.mod_pos_bound (cur_after (-1) arr) 256 eq_refl); lia).
      assert (A2 : ascending 0 255 (put_diff l0 c0 (n, cp0))) by (apply put_ascending; assumption). split; [exact A2|]. intros c m cp.
      rewrite <- (find_in _ _ _ _ _ A2), (find_put _ _ _ _ _ _ A), told_name. fold c0. destruct (Z.eqb_spec c c0) as [->|NE].
      * split; [intros X; injection X as -> ->; auto|]. intros [-> M2]. rewrite (meant_fun _ _ _ _ _ M M2). reflexivity.
      * rewrite (find_in _ _ _ _ _ A). apply B.
    + assert (E3 : l = l0) by (destruct o; try discriminate; cbn in E2; apply ok_inj in E2; congruence). subst l0. split; [exact A|]. intros c n cp. rewrite B, (told_other _ _ _ _ NO). reflexivity.
Qed.
(** When reading succeeds *)
Lemma read_total ex : forall arr cur l, (forall n, In (OName n) arr -> ex = true \/ exists cp, name_point n = Ok cp) -> cur + Z.of_nat (length arr) < 2 ^ 63 ->
  (forall v, In (ONum v) arr -> v + Z.of_nat (length arr) < 2 ^ 63) -> exists m, read_diffs ex cur l arr = Ok m.
Proof.
  induction arr as [|o arr IH]; intros cur l N B V; [eexists; reflexivity|]. cbn [length] in *.
  assert (N2 : forall n, In (OName n) arr -> ex = true \/ exists cp, name_point n = Ok cp) by (intros n I; exact (N n (or_intror I))).
  assert (V2 : forall v, In (ONum v) arr -> v + Z.of_nat (length arr) < 2 ^ 63) by (intros v I; specialize (V v (or_intror I)); lia).
  destruct o; cbn [read_diffs]; try (apply IH; [exact N2|lia|exact V2]).
  - apply IH; [exact N2|specialize (V _ (or_introl eq_refl)); lia|exact V2].
  - destruct (N _ (or_introl eq_refl)) as [->|[cp E]]; unfold add_name; [|rewrite E; destruct ex]; cbn [bind]; (destruct (Z.eqb_spec cur (2 ^ 63 - 1)); [lia|]); apply IH; solve [exact N2|lia|exact V2].
Qed.
Lemma read_fails : forall arr cur l n, In (OName n) arr -> (forall cp, name_point n <> Ok cp) -> forall m, read_diffs false cur l arr <> Ok m.
Proof.
  induction arr as [|o arr IH]; intros cur l n I F m E; [destruct I|]. destruct I as [->|I].
  - cbn [read_diffs add_name] in E. apply bind_ok in E. destruct E as (l1 & E & _). apply bind_ok in E. destruct E as (cp & E & _). exact (F cp E).
  - destruct o; cbn [read_diffs] in E; try exact (IH _ _ _ I F _ E). apply bind_ok in E. destruct E as (l1 & _ & E). destruct (cur =? 2 ^ 63 - 1); [discriminate|]. exact (IH _ _ _ I F _ E).
Qed.

(** ** Writing and reading back *)
Lemma put_end acc c v : (forall k w, In (k, w) acc -> k < c) -> put_diff acc c v = acc ++ [(c, v)].
Proof.
  induction acc as [|[k w] acc IH]; intros B; [reflexivity|]. cbn [put_diff app]. pose proof (B k w (or_introl eq_refl)). destruct (Z.ltb_spec c k); [lia|]. destruct (Z.eqb_spec c k); [lia|].
  rewrite IH; [reflexivity|]. intros k2 w2 I. exact (B k2 w2 (or_intror I)).
Qed.
Lemma read_written ex : forall l last cur acc lo, ascending lo 255 l -> 0 <= lo -> last < lo -> (last = -2 \/ cur = last + 1) -> (forall k w, In (k, w) acc -> k < lo) ->
  (forall c n cp, In (c, (n, cp)) l -> meant ex c n cp) -> read_diffs ex cur acc (to_array last l) = Ok (acc ++ l).
Proof.
  induction l as [|[c [n cp]] l IH]; intros last cur acc lo A L0 LL C B M; [cbn; rewrite app_nil_r; reflexivity|]. cbn in A. destruct A as (A1 & A2 & A3).
  assert (P : add_name ex acc c n = Ok (acc ++ [(c, (n, cp))])).
  { pose proof (M c n cp (or_introl eq_refl)) as M0. unfold add_name, meant in *. destruct ex; [subst cp|rewrite M0; cbn [bind]]; rewrite put_end; try reflexivity; intros k w I; specialize (B k w I); lia. }
  assert (R : forall ls, ls = c -> read_diffs ex (c + 1) (acc ++ [(c, (n, cp))]) (to_array ls l) = Ok (acc ++ (c, (n, cp)) :: l)).
  { intros ls ->. rewrite (IH c (c + 1) _ (c + 1)); try lia; try assumption; [rewrite <- app_assoc; reflexivity| |].
    - intros k w I. apply in_app_or in I. destruct I as [I|[I|[]]]; [specialize (B k w I); lia|injection I as -> _; lia].
    - intros c2 n2 cp2 I. exact (M _ _ _ (or_intror I)). }
  cbn [to_array]. destruct (Z.eqb_spec c (last + 1)) as [E|E].
  - assert (cur = c) by lia. subst cur. cbn [read_diffs]. rewrite (Z.mod_small c 256) by lia. rewrite P. cbn [bind]. destruct (Z.eqb_spec c (2 ^ 63 - 1)); [lia|]. apply R. lia.
  - cbn [read_diffs]. rewrite (Z.mod_small c 256) by lia. rewrite P. cbn [bind]. destruct (Z.eqb_spec c (2 ^ 63 - 1)); [lia|]. apply R. reflexivity.
Qed.

(** ** The reverse map *)
Definition here (zero : Z) (e : diff_map) (c : Z) : option Z :=
  match find_diff (d_list e) (c mod 256) with
  | Some (_, cp) => Some cp
  | None => match b_points (d_base e) (mk_code c (size_of zero c)) with Some (cp :: _) => Some cp | _ => None end
  end.
Lemma find_put_point m cp c d : find_point (put_point m cp c) d = if d =? cp then Some c else find_point m d.
Proof.
  induction m as [|[k v] m IH]; cbn [put_point find_point]; [rewrite Z.eqb_sym; reflexivity|].
  destruct (Z.eqb_spec k cp); cbn [find_point]; [subst k; rewrite (Z.eqb_sym cp d); destruct (Z.eqb_spec d cp); reflexivity|].
  rewrite IH. destruct (Z.eqb_spec k d), (Z.eqb_spec d cp); try reflexivity; lia.
Qed.
Lemma reverse_spec zero e : forall n c m m', reverse_map zero e c n m = Ok m' -> forall cp,
  (forall k, c <= k < c + Z.of_nat n -> here zero e k = Some cp -> (forall j, k < j < c + Z.of_nat n -> here zero e j <> Some cp) -> find_point m' cp = Some k) /\
  ((forall k, c <= k < c + Z.of_nat n -> here zero e k <> Some cp) -> find_point m' cp = find_point m cp).
Proof.
  induction n as [|n IH]; intros c m m' E cp.
  - cbn in E. apply ok_inj in E. subst m'. split; [intros; lia|reflexivity].
  - cbn [reverse_map] in E.
    assert (S1 : exists m1, reverse_map zero e (c + 1) n m1 = Ok m' /\ (here zero e c = Some cp -> find_point m1 cp = Some c) /\ (here zero e c <> Some cp -> find_point m1 cp = find_point m cp)).
    { unfold here. destruct (find_diff (d_list e) (c mod 256)) as [[nm u]|]; [|destruct (b_points (d_base e) (mk_code c (size_of zero c))) as [[|u us]|]; [discriminate| |]].
      - exists (put_point m u c). split; [exact E|]. rewrite find_put_point. split; intros X; destruct (Z.eqb_spec cp u); try reflexivity; congruence.
      - exists (put_point m u c). split; [exact E|]. rewrite find_put_point. split; intros X; destruct (Z.eqb_spec cp u); try reflexivity; congruence.
      - exists m. split; [exact E|]. split; [discriminate|reflexivity]. }
    destruct S1 as (m1 & E1 & H1 & H2). destruct (IH _ _ _ E1 cp) as [I1 I2]. split.
    + intros k B H L. destruct (Z.eq_dec k c) as [->|NE].
      * rewrite I2; [exact (H1 H)|]. intros j J. apply L. lia.
      * apply I1; [lia|exact H|]. intros j J. apply L. lia.
    + intros N. rewrite I2; [|intros k K; apply N; lia]. apply H2. apply N. lia.
Qed.
(** The last of the codes with a property, if there is one *)
Lemma last_that (P : Z -> Prop) (D : forall k, P k \/ ~ P k) : forall n c, (exists k, c <= k < c + Z.of_nat n /\ P k /\ forall j, k < j < c + Z.of_nat n -> ~ P j) \/ (forall k, c <= k < c + Z.of_nat n -> ~ P k).
Proof.
  induction n as [|n IH]; intros c; [right; intros; lia|]. destruct (D (c + Z.of_nat n)) as [H|H].
  - left. exists (c + Z.of_nat n). split; [lia|]. split; [exact H|]. intros; lia.
  - destruct (IH c) as [(k & K & PK & L)|N].
    + left. exists k. split; [lia|]. split; [exact PK|]. intros j J. destruct (Z.eq_dec j (c + Z.of_nat n)) as [->|]; [exact H|]. apply L. lia.
    + right. intros k K. destruct (Z.eq_dec k (c + Z.of_nat n)) as [->|]; [exact H|]. apply N. lia.
Qed.
Lemma reverse_iff zero e n c m' : reverse_map zero e c n [] = Ok m' -> forall cp k,
  find_point m' cp = Some k <-> c <= k < c + Z.of_nat n /\ here zero e k = Some cp /\ forall j, k < j < c + Z.of_nat n -> here zero e j <> Some cp.
Proof.
  intros E cp k. destruct (reverse_spec _ _ _ _ _ _ E cp) as [S1 S2]. split; [|intros (A & B & C); exact (S1 _ A B C)]. intros F.
  destruct (last_that (fun k => here zero e k = Some cp)) with (n := n) (c := c) as [(j & J & H & L)|N].
  - intros j. destruct (here zero e j) as [u|]; [|right; discriminate]. destruct (Z.eq_dec u cp); [left; congruence|right; congruence].
  - rewrite (S1 _ J H L) in F. injection F as ->. repeat split; try lia; assumption.
  - rewrite (S2 N) in F. discriminate.
Qed.
Lemma reverse_total zero e : forall n c m, (forall k, c <= k < c + Z.of_nat n -> b_points (d_base e) (mk_code k (size_of zero k)) <> Some []) -> exists m', reverse_map zero e c n m = Ok m'.
Proof.
  induction n as [|n IH]; intros c m H; [eexists; reflexivity|]. cbn [reverse_map].
  assert (H2 : forall k, c + 1 <= k < c + 1 + Z.of_nat n -> b_points (d_base e) (mk_code k (size_of zero k)) <> Some []) by (intros k K; apply H; lia).
  destruct (find_diff (d_list e) (c mod 256)) as [[nm u]|]; [apply IH; exact H2|]. pose proof (H c ltac:(lia)) as H0.
  destruct (b_points (d_base e) (mk_code c (size_of zero c))) as [[|u us]|]; [contradiction|apply IH; exact H2|apply IH; exact H2].
Qed.

(** ** Text *)
Lemma append_one c acc : 0 <= c < 256 -> append_code (mk_code c 1) acc = Ok (acc ++ [c]).
Proof. intros B. change (append_code (mk_code c 1) acc) with (@Ok (list Z) (acc ++ [Z.shiftr c 0 mod 256])). rewrite Z.shiftr_0_r, Z.mod_small by lia. reflexivity. Qed.
Lemma bytes_one c : 0 <= c < 256 -> code_bytes (mk_code c 1) = [c].
Proof. intros B. change (code_bytes (mk_code c 1)) with [Z.shiftr c 0 mod 256]. rewrite Z.shiftr_0_r, Z.mod_small by lia. reflexivity. Qed.
Lemma encode_shape look : (forall cp c, look cp = Ok (Some c) -> c_size c = 1 /\ 0 <= c_num c < 256) -> forall text acc out, encode_with look text acc = Ok (Some out) ->
  exists cs, out = acc ++ cs /\ Forall2 (fun cp c => look cp = Ok (Some (mk_code c 1)) /\ 0 <= c < 256) text cs.
Proof.
  intros H. induction text as [|cp text IH]; intros acc out E.
  - cbn in E. apply ok_inj in E. injection E as <-. exists []. rewrite app_nil_r. split; [reflexivity|constructor].
  - cbn [encode_with] in E. apply bind_ok in E. destruct E as (r & E1 & E2). destruct r as [[c s]|]; [|discriminate]. destruct (H _ _ E1) as [H1 H2]. cbn in H1, H2. subst s.
    rewrite append_one in E2 by exact H2. cbn [bind] in E2. destruct (IH _ _ E2) as (cs & -> & F). exists (c :: cs). rewrite <- app_assoc. split; [reflexivity|]. constructor; [auto|exact F].
Qed.
Lemma encode_total look : (forall cp c, look cp = Ok (Some c) -> c_size c = 1 /\ 0 <= c_num c < 256) -> forall text acc, Forall (fun cp => exists c, look cp = Ok (Some c)) text -> exists out, encode_with look text acc = Ok (Some out).
Proof.
  intros H. induction text as [|cp text IH]; intros acc F; [eexists; reflexivity|]. assert (F1 : exists c, look cp = Ok (Some c)) by (inversion F; assumption). destruct F1 as [[c s] F1].
  cbn [encode_with]. rewrite F1. cbn [bind]. destruct (H _ _ F1) as [H1 H2]. cbn in H1, H2. subst s. rewrite append_one by exact H2. cbn [bind]. apply IH. inversion F; assumption.
Qed.
Lemma encode_none look : (forall cp c, look cp = Ok (Some c) -> c_size c = 1 /\ 0 <= c_num c < 256) -> (forall cp, exists r, look cp = Ok r) -> forall text acc,
  encode_with look text acc = Ok None <-> exists cp, In cp text /\ look cp = Ok None.
Proof.
  intros H T. induction text as [|cp text IH]; intros acc; [cbn; split; [discriminate|intros (cp & [] & _)]|]. cbn [encode_with]. destruct (T cp) as [[[c s]|] E]; rewrite E; cbn [bind].
  - destruct (H _ _ E) as [H1 H2]. cbn in H1, H2. subst s. rewrite append_one by exact H2. cbn [bind]. rewrite IH. split; intros (x & I & X); [exists x; split; [right; exact I|exact X]|]. destruct I as [->|I]; [congruence|eauto].
  - split; [|reflexivity]. intros _. exists cp. split; [left; reflexivity|exact E].
Qed.
Lemma decode_one look text cs : Forall2 (fun cp c => look (mk_code c 1) = Some [cp] /\ 0 <= c < 256) text cs -> decode (length cs) look one_byte cs = Ok (filter kept text, true).
Proof.
  intros F. pose proof (decode_chunks look one_byte 1 ltac:(lia) eq_refl eq_refl (combine (map (fun c => mk_code c 1) cs) (map (fun cp => [cp]) text))) as D.
  assert (E : concat (map (fun x => code_bytes (fst x)) (combine (map (fun c => mk_code c 1) cs) (map (fun cp => [cp]) text))) = cs /\ concat (map snd (combine (map (fun c => mk_code c 1) cs) (map (fun cp => [cp]) text))) = text).
  { clear D. induction F as [|cp c text cs [F1 F2] F IH]; [split; reflexivity|]. cbn [map combine concat fst snd]. destruct IH as [-> ->]. rewrite bytes_one by exact F2. split; reflexivity. }
  destruct E as [E1 E2]. rewrite E1, E2 in D. apply D; [|lia]. clear D E1 E2. induction F as [|cp c text cs [F1 F2] F IH]; [constructor|]. cbn [map combine]. constructor; [|exact IH]. cbn. auto.
Qed.
Lemma all_kept text : Forall (fun cp => kept cp = true) text -> filter kept text = text.
Proof. induction 1 as [|cp text K F IH]; [reflexivity|]. cbn [filter]. rewrite K, IH. reflexivity. Qed.
Lemma size_one zero c : 1 <= c < 256 -> size_of zero c = 1.
Proof.
  intros B. unfold size_of. destruct (Z.eqb_spec c 0); [lia|]. assert (Z.log2 c < 8) by (apply Z.log2_lt_pow2; lia). pose proof (Z.log2_nonneg c). rewrite Z.div_small by lia. reflexivity.
Qed.

(** ** Built-in encodings *)
Lemma last_code_spec : forall t i cp c, last_code i t cp = Some c <-> i <= c < i + Z.of_nat (length t) /\ nth_error t (Z.to_nat (c - i)) = Some cp /\ forall j, c < j < i + Z.of_nat (length t) -> nth_error t (Z.to_nat (j - i)) <> Some cp.
Proof.
  induction t as [|u t IH]; intros i cp c; cbn [last_code].
  - cbn. split; [discriminate|lia].
  - destruct (last_code (i + 1) t cp) as [d|] eqn:E.
    + pose proof (proj1 (IH _ _ _) E) as (A & B & C). assert (G : forall j, i < j -> nth_error (u :: t) (Z.to_nat (j - i)) = nth_error t (Z.to_nat (j - (i + 1)))) by (intros j J; replace (Z.to_nat (j - i)) with (S (Z.to_nat (j - (i + 1)))) by lia; reflexivity).
      cbn [length] in *. split.
      * intros X. injection X as <-. split; [lia|]. split; [rewrite G by lia; exact B|]. intros j J. rewrite G by lia. apply C. lia.
      * intros (X & Y & Z0). f_equal. destruct (Z.lt_trichotomy c d) as [L|[L|L]]; [|symmetry; exact L|].
        -- exfalso. apply (Z0 d); [lia|]. rewrite G by lia. exact B.
        -- exfalso. apply (C c); [lia|]. rewrite <- G by lia. exact Y.
    + assert (N : forall j, i < j < i + Z.of_nat (length (u :: t)) -> nth_error (u :: t) (Z.to_nat (j - i)) <> Some cp).
      { cbn [length]. intros j J X. replace (Z.to_nat (j - i)) with (S (Z.to_nat (j - (i + 1)))) in X by lia. cbn in X.
        assert (D : forall n c0, (forall k, c0 <= k < c0 + Z.of_nat n -> nth_error t (Z.to_nat (k - (i + 1))) <> Some cp) \/ exists k, c0 <= k < c0 + Z.of_nat n /\ nth_error t (Z.to_nat (k - (i + 1))) = Some cp /\ forall l, k < l < c0 + Z.of_nat n -> nth_error t (Z.to_nat (l - (i + 1))) <> Some cp).
        { intros n c0. destruct (last_that (fun k => nth_error t (Z.to_nat (k - (i + 1))) = Some cp)) with (n := n) (c := c0) as [H|H]; [|right; exact H|left; exact H].
          intros k. destruct (nth_error t (Z.to_nat (k - (i + 1)))) as [v|]; [|right; discriminate]. destruct (Z.eq_dec v cp); [left; congruence|right; congruence]. }
        destruct (D (length t) (i + 1)) as [H|(k & K & H & L)]; [apply (H j); [lia|exact X]|]. assert (Some k = None); [|discriminate]. rewrite <- E. symmetry. apply IH. repeat split; try lia; assumption. }
      destruct (Z.eqb_spec u cp) as [->|NE].
      * split; [intros X; injection X as <-; split; [cbn [length]; lia|]; split; [rewrite Z.sub_diag; reflexivity|exact N]|]. intros (X & Y & Z0). f_equal. destruct (Z.eq_dec c i) as [->|]; [reflexivity|]. exfalso. apply (N c); [lia|exact Y].
      * split; [discriminate|]. intros (X & Y & Z0). exfalso. destruct (Z.eq_dec c i) as [->|]; [rewrite Z.sub_diag in Y; cbn in Y; congruence|]. apply (N c); [lia|exact Y].
Qed.
Lemma builtin_points_at t c s cp : length t = 256%nat -> 0 <= c -> builtin_points t (mk_code c s) = Some [cp] <-> nth_error t (Z.to_nat c) = Some cp.
Proof.
  intros L B. unfold builtin_points. cbn [c_num]. destruct (Z.leb_spec 256 c).
  - split; [discriminate|]. intros E. assert (Z.to_nat c < 256)%nat by (rewrite <- L; apply nth_error_Some; rewrite E; discriminate). lia.
  - destruct (nth_error t (Z.to_nat c)); cbn; split; congruence.
Qed.

(** ** Names *)
Lemma digit_low v : 0 <= v < 16 -> digit_of (low_digit v) = v.
Proof.
  intros B. unfold low_digit, digit_of. destruct (Z.ltb_spec v 10).
  - destruct (Z.leb_spec 48 (48 + v)); [|lia]. destruct (Z.leb_spec (48 + v) 57); [|lia]. cbn [andb]. lia.
  - destruct (Z.leb_spec 48 (87 + v)); [|lia]. destruct (Z.leb_spec (87 + v) 57); [lia|]. cbn [andb]. destruct (Z.leb_spec 97 (87 + v)); [|lia]. destruct (Z.leb_spec (87 + v) 122); [|lia]. cbn [andb]. lia.
Qed.
Lemma point_hex ds : Forall (fun x => digit_of x < 16) ds -> point_of names_table (bs "uni" ++ ds) = None.
Proof.
  intros H. assert (C : forallb (fun p => negb (beq (firstn 3 (snd p)) (bs "uni")) || negb (forallb (fun x => digit_of x <? 16) (skipn 3 (snd p)))) names_table = true) by (vm_compute; reflexivity).
  induction names_table as [|[u m] t IH]; [reflexivity|]. cbn [forallb snd] in C. apply andb_prop in C. destruct C as [C1 C2]. cbn [point_of]. destruct (beq m (bs "uni" ++ ds)) eqn:E; [|exact (IH C2)]. exfalso. apply beq_eq in E. subst m.
  change (firstn 3 (bs "uni" ++ ds)) with (bs "uni") in C1. change (skipn 3 (bs "uni" ++ ds)) with ds in C1. rewrite beq_refl in C1. cbn [negb orb] in C1.
  assert (X : forallb (fun x => digit_of x <? 16) ds = true) by (apply forallb_forall; intros x I; apply Z.ltb_lt; rewrite Forall_forall in H; exact (H x I)). rewrite X in C1. discriminate.
Qed.
Lemma name_of_none t cp : ~ In cp (map fst t) -> name_of t cp = None.
Proof. induction t as [|[u m] t IH]; intros N; [reflexivity|]. cbn [name_of]. destruct (Z.eqb_spec u cp) as [->|NE]; [destruct N; left; reflexivity|]. apply IH. intros I. apply N. right. exact I. Qed.
Definition four_point (a b c d : Z) : Z := ((a * 16 + b) * 16 + c) * 16 + d.
Lemma uni_four_general x1 x2 x3 x4 : digit_of x1 < 16 -> digit_of x2 < 16 -> digit_of x3 < 16 -> digit_of x4 < 16 -> 0 <= digit_of x1 -> 0 <= digit_of x2 -> 0 <= digit_of x3 -> 0 <= digit_of x4 ->
  name_point (bs "uni" ++ [x1; x2; x3; x4]) = Ok (four_point (digit_of x1) (digit_of x2) (digit_of x3) (digit_of x4)).
Proof.
  intros. unfold name_point. rewrite point_hex by (repeat constructor; assumption). change (firstn 3 (bs "uni" ++ [x1; x2; x3; x4])) with (bs "uni"). rewrite beq_refl. change (skipn 3 (bs "uni" ++ [x1; x2; x3; x4])) with [x1; x2; x3; x4].
  change (Z.of_nat (length [x1; x2; x3; x4]) =? 4) with true. cbv iota. unfold from_chars_unsigned. cbn [leading].
  rewrite (proj2 (Z.ltb_lt (digit_of x1) 16)), (proj2 (Z.ltb_lt (digit_of x2) 16)), (proj2 (Z.ltb_lt (digit_of x3) 16)), (proj2 (Z.ltb_lt (digit_of x4) 16)) by assumption. cbn [fold_left]. fold (four_point (digit_of x1) (digit_of x2) (digit_of x3) (digit_of x4)). replace (0 * 16 + digit_of x1) with (digit_of x1) by lia. fold (four_point (digit_of x1) (digit_of x2) (digit_of x3) (digit_of x4)).
  destruct (Z.ltb_spec (four_point (digit_of x1) (digit_of x2) (digit_of x3) (digit_of x4)) (2 ^ 32)); [reflexivity|]. unfold four_point in *. lia.
Qed.
