(** Lemmas behind the theorems about the object list. *)
From Coq Require Import String.
From Verif Require Import Base TokModel ChainProofs ObjProofs ListModel ListSpec ListProofs.
Local Open Scope Z_scope.

(** ** C28, C29 *)
Lemma next_free_cases h s r s0 : hist h s -> room s -> next_free s = Ok (r, s0) ->
  (exists t, frees s = r :: t /\ reuse s = true /\ s0 = mk_ol (live s) (count s) t (unavail s) (ostrms s) (reuse s)) \/
  (r = (count s, 0) /\ s0 = s /\ count s <= 65534).
Proof.
  intros H R NF. destruct (hist_wf_inv _ _ H) as [_ I]. pose proof (i_cnt _ _ _ I) as IC. unfold next_free in NF.
  assert (NN : count s <= 65534 -> next_num (Z.to_nat 65536) (u16 (count s)) (unavail s) = Ok (count s)).
  { intro L. replace (Z.to_nat 65536) with (S (Z.to_nat 65535)) by lia. cbn [next_num]. unfold u16. rewrite Z.mod_small by lia.
    destruct (existsb (Z.eqb (count s)) (unavail s)) eqn:E; [|reflexivity]. apply existsb_z in E. apply (i_un _ _ _ I) in E. lia. }
  destruct (frees s) as [|f t] eqn:FR.
  - right. destruct R as [R|[_ R]]; [|congruence]. rewrite (NN R) in NF. cbn in NF. injection NF as <- <-. auto.
  - destruct (reuse s) eqn:RE.
    + left. injection NF as <- <-. exists t. auto.
    + right. destruct R as [R|[R _]]; [|congruence]. rewrite (NN R) in NF. cbn in NF. injection NF as <- <-. auto.
Qed.
Lemma next_free_ok h s : hist h s -> room s -> exists r s0, next_free s = Ok (r, s0).
Proof.
  intros H R. destruct (hist_wf_inv _ _ H) as [_ I]. pose proof (i_cnt _ _ _ I) as IC. unfold next_free.
  assert (NN : count s <= 65534 -> next_num (Z.to_nat 65536) (u16 (count s)) (unavail s) = Ok (count s)).
  { intro L. replace (Z.to_nat 65536) with (S (Z.to_nat 65535)) by lia. cbn [next_num]. unfold u16. rewrite Z.mod_small by lia.
    destruct (existsb (Z.eqb (count s)) (unavail s)) eqn:E; [|reflexivity]. apply existsb_z in E. apply (i_un _ _ _ I) in E. lia. }
  destruct (frees s) as [|f t] eqn:FR.
  - destruct R as [R|[_ R]]; [|congruence]. rewrite (NN R). cbn [bind]. eauto.
  - destruct (reuse s) eqn:RE; [eauto|]. destruct R as [R|[R _]]; [|congruence]. rewrite (NN R). cbn [bind]. eauto.
Qed.
Lemma put_get {A} r (o : A) l r' : sorted l -> get r' (put r o l) = if ref_eqb r' r then Some o else get r' l.
Proof.
  intro S. pose proof (put_sorted r o l S) as S'. destruct (ref_eqb r' r) eqn:E.
  - apply ref_eqb_iff in E. subst r'. apply get_in; [exact S'|]. apply put_in; auto.
  - apply ref_eqb_false in E. apply get_ext; [exact S'|exact S|]. intro x. rewrite put_in by exact S. cbn. split.
    + intros [K|[K _]]; [congruence|exact K].
    + auto.
Qed.
Lemma erase_get {A} r (l : list (ref * A)) r' : sorted l -> get r' (erase r l) = if ref_eqb r' r then None else get r' l.
Proof.
  intro S. pose proof (erase_sorted r l S) as S'. destruct (ref_eqb r' r) eqn:E.
  - apply ref_eqb_iff in E. subst r'. apply get_none; [exact S'|]. intros o H. apply erase_in in H as [_ H]; [apply H; reflexivity|exact S].
  - apply ref_eqb_false in E. apply get_ext; [exact S'|exact S|]. intro x. rewrite erase_in by exact S. cbn. tauto.
Qed.

Lemma create_fresh h s o : hist h s -> room s -> exists r s', create o s = Ok (r, s') /\
  get_object r s = None /\ get_object r s' = Some o /\ (forall r', r' <> r -> get_object r' s' = get_object r' s).
Proof.
  intros H R. destruct (next_free_ok h s H R) as (r & s0 & NF). exists r, (push r o s0).
  destruct (hist_wf_inv _ _ H) as [[W1 W2] I].
  split; [unfold create; rewrite NF; reflexivity|].
  assert (LV : live s0 = live s /\ get_object r s = None).
  { destruct (next_free_cases h s r s0 H R NF) as [(t & FR & _ & ->)|(-> & -> & L)]; cbn [live]; (split; [reflexivity|]).
    - rewrite get_object_get. apply get_none; [exact W1|]. intros x X. 
      apply (i_disj _ _ _ I r r); [exists x; exact X|rewrite FR; left; reflexivity|reflexivity].
    - rewrite get_object_get. apply get_none; [exact W1|]. intros x X.
      assert (Q : In (count s, 0) h) by (apply (i_live _ _ _ I); exists x; exact X). apply (i_hist _ _ _ I) in Q. cbn in Q. lia. }
  destruct LV as [LV G]. split; [exact G|]. split.
  - rewrite get_object_get. cbn [push live]. rewrite LV, put_get, ref_eqb_refl by exact W1. reflexivity.
  - intros r' N. rewrite !get_object_get. cbn [push live]. rewrite LV, put_get by exact W1.
    destruct (ref_eqb r' r) eqn:E; [apply ref_eqb_iff in E; contradiction|reflexivity].
Qed.

Lemma create_generation h s o n g s' : hist h s -> room s -> create o s = Ok ((n, g), s') ->
  (forall g', In (n, g') h -> g' < g) /\ g <= 65534.
Proof.
  intros H R C. unfold create in C. apply bind_ok in C as ([r s0] & NF & E). cbn [fst snd] in E. injection E as -> _.
  destruct (hist_wf_inv _ _ H) as [_ I].
  destruct (next_free_cases h s (n, g) s0 H R NF) as [(t & FR & _ & _)|(Q & _ & L)].
  - assert (IN : In (n, g) (frees s)) by (rewrite FR; left; reflexivity). split.
    + intros g' K. exact (i_fmax _ _ _ I (n, g) (n, g') IN K eq_refl).
    + apply (i_free _ _ _ I) in IN. cbn in IN. lia.
  - injection Q as -> ->. split; [|lia]. intros g' K. apply (i_hist _ _ _ I) in K. cbn in K. lia.
Qed.

(** ** C30 *)
Lemma replace_live s r o old : well_formed s -> get_object r s = Some old -> exists s', replace r o true s = (Ok old, s') /\
  get_object r s' = Some o /\ (forall r', r' <> r -> get_object r' s' = get_object r' s).
Proof.
  intros [W1 W2] G. rewrite get_object_get in G. unfold replace. unfold get in G.
  destruct (lower r (live s)) as [|[r' o'] t] eqn:L; [discriminate G|]. destruct (ref_eqb r' r) eqn:E; [|discriminate G].
  injection G as ->. apply ref_eqb_iff in E. subst r'. cbn [negb andb]. eexists. split; [reflexivity|].
  pose proof (erase_sorted r _ W1) as SE.
  split.
  - rewrite get_object_get. cbn [live]. rewrite put_get, ref_eqb_refl by exact SE. reflexivity.
  - intros r' N. rewrite !get_object_get. cbn [live]. rewrite put_get by exact SE. apply ref_eqb_false in N. rewrite N, erase_get, N by exact W1. reflexivity.
Qed.

(** ** Removal *)
Lemma remove_exact s r mark : well_formed s -> ~ In (fst r) (ostrms s) -> exists s', remove r mark s = Ok (get_object r s, s') /\
  get_object r s' = None /\ (forall r', r' <> r -> get_object r' s' = get_object r' s).
Proof.
  intros [W1 W2] O. unfold remove. destruct (get_object r s) as [o|] eqn:G.
  - destruct (existsb (Z.eqb (fst r)) (ostrms s)) eqn:E; [apply existsb_z in E; contradiction|]. cbv zeta. eexists. split; [reflexivity|].
    assert (LV : live (if mark then safe_add_free r s else s) = live s) by (destruct mark; [apply safe_add_live|reflexivity]).
    split.
    + rewrite get_object_get. cbn [live]. rewrite LV, erase_get, ref_eqb_refl by exact W1. reflexivity.
    + intros r' N. rewrite !get_object_get. cbn [live]. apply ref_eqb_false in N. rewrite LV, erase_get, N by exact W1. reflexivity.
  - exists s. auto.
Qed.

(** ** C31: garbage collection *)
Section Visit.
Variable s : olist.
Notation look := (fun r => get_object r s).
(** number of objects not yet seen *)
Definition unseen (seen : list ref) : nat := length (filter (fun x : ref * iobj => negb (existsb (ref_eqb (fst x)) seen)) (live s)).
Lemma filter_le {A} (f g : A -> bool) l : (forall x, f x = true -> g x = true) -> (length (filter f l) <= length (filter g l))%nat.
Proof.
  intro H. induction l as [|x l IH]; cbn [filter]; [lia|]. destruct (f x) eqn:F.
  - rewrite (H x F). cbn. lia.
  - destruct (g x); cbn; lia.
Qed.
Lemma filter_lt {A} (f g : A -> bool) l x : (forall x, f x = true -> g x = true) -> In x l -> f x = false -> g x = true ->
  (length (filter f l) < length (filter g l))%nat.
Proof.
  intros H I F G. induction l as [|y l IH]; [destruct I|]. cbn [filter]. destruct I as [-> |I].
  - rewrite F, G. cbn. pose proof (filter_le f g l H). lia.
  - specialize (IH I). destruct (f y) eqn:FY; [rewrite (H y FY); cbn; lia|]. destruct (g y); cbn; lia.
Qed.
Lemma unseen_mono a b : incl a b -> (unseen b <= unseen a)%nat.
Proof.
  intro H. apply filter_le. intros x. rewrite !negb_true_iff, <- !not_true_iff_false, !existsb_ref. intros N K. apply N, H, K.
Qed.

(** What visiting the roots [m] must achieve: [v] is the set before, [v'] after. *)
Definition closed_over (m : ref -> Prop) (v v' : list ref) : Prop :=
  incl v v' /\
  (forall r, m r -> look r <> None -> In r v') /\
  (forall r c r', In r v' -> ~ In r v -> look r = Some c -> mentions (fst c) r' -> look r' <> None -> In r' v') /\
  (forall (P : ref -> Prop), (forall r c, m r -> look r = Some c -> P r) ->
     (forall r c r' c', P r -> look r = Some c -> mentions (fst c) r' -> look r' = Some c' -> P r') ->
     forall r, In r v' -> In r v \/ P r).
Lemma closed_nil v : closed_over (fun _ => False) v v.
Proof. split; [apply incl_refl|]. split; [tauto|]. split; [tauto|]. auto. Qed.
Lemma closed_weaken (m m' : ref -> Prop) v v' : (forall r, m r <-> m' r) -> closed_over m v v' -> closed_over m' v v'.
Proof.
  intros E (A & B & C & D). split; [exact A|]. split; [intros r M; apply B, E, M|]. split; [exact C|].
  intros P R S. apply D; [|exact S]. intros r c M. apply R, E, M.
Qed.
Lemma closed_union (m m' : ref -> Prop) v v' v'' : closed_over m v v' -> closed_over m' v' v'' -> closed_over (fun r => m r \/ m' r) v v''.
Proof.
  intros (A & B & C & D) (A' & B' & C' & D'). split; [intros r R; apply A', A, R|]. split.
  { intros r [M|M] L; [apply A', B; assumption|apply B'; assumption]. } split.
  { intros r c r' R N L M L'. destruct (in_dec (fun a b => match ref_eqb a b as q return ref_eqb a b = q -> {a = b} + {a <> b} with
      | true => fun E => left (proj1 (ref_eqb_iff a b) E) | false => fun E => right (proj1 (ref_eqb_false a b) E) end eq_refl) r v') as [I|I].
    - apply A'. apply (C r c r'); assumption.
    - apply (C' r c r'); assumption. }
  intros P R S r I. destruct (D' P ltac:(intros x c X; apply (R x c); auto) S r I) as [K|K]; [|auto].
  apply (D P ltac:(intros x c X; apply (R x c); auto) S r K).
Qed.

Definition good (fl : ref -> list ref -> option (list ref)) (n : nat) : Prop :=
  forall r v, (unseen v <= n)%nat -> exists v', fl r v = Some v' /\ closed_over (eq r) v v'.

Lemma visit_good fl n : good fl n -> forall o v, (unseen v <= n)%nat ->
  exists v', visit_value fl o v = Some v' /\ closed_over (mentions o) v v'.
Proof.
  intro G. assert (None_m : forall o, (match o with ORef _ _ | OArr _ | ODict _ => False | _ => True end) -> forall r, False <-> mentions o r).
  { intros o N r. split; [tauto|]. intro M. destruct M; exact N. }
  induction o as [|b|z|m k0|nm|hx x|a g|l IH|d IH] using obj_ind2; intros v U; cbn [visit_value];
    try (exists v; split; [reflexivity|]; eapply closed_weaken; [apply None_m; exact I|apply closed_nil]).
  - destruct (G (a, g) v U) as (v' & E & C). exists v'. split; [exact E|]. eapply closed_weaken; [|exact C].
    intro r. split; [intros <-; constructor|]. intro M. inversion M. reflexivity.
  - revert v U. induction IH as [|x l HX _ IHl]; intros v U.
    + exists v. split; [reflexivity|]. eapply closed_weaken; [|apply closed_nil]. intro r. split; [tauto|]. intro M. inversion M as [|? ? ? Y MY|]; subst; destruct Y.
    + destruct (HX v U) as (v1 & E1 & C1). rewrite E1.
      destruct (IHl v1) as (v2 & E2 & C2). { pose proof (unseen_mono v v1 (proj1 C1)). lia. }
      exists v2. split; [exact E2|]. eapply closed_weaken; [|exact (closed_union _ _ _ _ _ C1 C2)].
      intro r. split.
      * intros [M|M]; [apply (mentions_arr (x :: l) x); [left; reflexivity|exact M]|].
        inversion M as [|? y ? Y MY|]; subst. apply (mentions_arr (x :: l) y); [right; exact Y|exact MY].
      * intro M. inversion M as [|? y ? Y MY|]; subst. destruct Y as [<- |Y]; [left; exact MY|right]. apply (mentions_arr l y); assumption.
  - revert v U. induction IH as [|[k x] l HX _ IHl]; intros v U.
    + exists v. split; [reflexivity|]. eapply closed_weaken; [|apply closed_nil]. intro r. split; [tauto|]. intro M. inversion M as [| |? ? ? ? Y MY]; subst; destruct Y.
    + cbn [snd] in HX. destruct (HX v U) as (v1 & E1 & C1). rewrite E1.
      destruct (IHl v1) as (v2 & E2 & C2). { pose proof (unseen_mono v v1 (proj1 C1)). lia. }
      exists v2. split; [exact E2|]. eapply closed_weaken; [|exact (closed_union _ _ _ _ _ C1 C2)].
      intro r. split.
      * intros [M|M]; [apply (mentions_dict ((k, x) :: l) k x); [left; reflexivity|exact M]|].
        inversion M as [| |? k' y ? Y MY]; subst. apply (mentions_dict ((k, x) :: l) k' y); [right; exact Y|exact MY].
      * intro M. inversion M as [| |? k' y ? Y MY]; subst. destruct Y as [Y|Y]; [injection Y as -> ->; left; exact MY|right].
        apply (mentions_dict l k' y); assumption.
Qed.

Lemma follow_good (W : well_formed s) fuel : good (follow fuel s) fuel.
Proof.
  destruct W as [W1 _]. induction fuel as [|f IH]; intros r v U.
  - cbn [follow]. destruct (get_object r s) as [[c st]|] eqn:G.
    + rewrite get_object_get in G. apply get_in in G; [|exact W1].
      assert (E : existsb (ref_eqb r) v = true).
      { destruct (existsb (ref_eqb r) v) eqn:E; [reflexivity|]. exfalso. unfold unseen in U.
        assert (K : In (r, (c, st)) (filter (fun x => negb (existsb (ref_eqb (fst x)) v)) (live s))).
        { apply filter_In. cbn [fst]. rewrite E. auto. }
        destruct (filter _ _); [destruct K|cbn in U; lia]. }
      rewrite E. exists v. split; [reflexivity|]. apply existsb_ref in E. apply get_in in G; [|exact W1]. rewrite <- get_object_get in G.
      split; [apply incl_refl|]. split; [intros x <- _; exact E|]. split; [tauto|]. auto.
    + exists v. split; [reflexivity|]. split; [apply incl_refl|]. split; [intros x <- L; congruence|]. split; [tauto|]. auto.
  - cbn [follow]. destruct (get_object r s) as [[c st]|] eqn:G.
    + destruct (existsb (ref_eqb r) v) eqn:E.
      { apply existsb_ref in E. exists v. split; [reflexivity|].
        split; [apply incl_refl|]. split; [intros x <- _; exact E|]. split; [tauto|]. auto. }
      assert (U' : (unseen (r :: v) <= f)%nat).
      { assert (unseen (r :: v) < unseen v)%nat; [|lia]. pose proof G as G'. rewrite get_object_get in G'. apply get_in in G'; [|exact W1].
        unfold unseen. apply (filter_lt _ _ _ (r, (c, st))).
        - intros x. rewrite !negb_true_iff, <- !not_true_iff_false, !existsb_ref. intros N K. apply N. right. exact K.
        - exact G'.
        - cbn [fst existsb]. rewrite ref_eqb_refl. reflexivity.
        - cbn [fst]. rewrite E. reflexivity. }
      destruct (visit_good _ _ IH c (r :: v) U') as (v' & EV & (A & B & C & D)). exists v'. split; [exact EV|].
      assert (NV : ~ In r v) by (rewrite <- existsb_ref; congruence).
      split; [intros x X; apply A; right; exact X|]. split; [intros x <- _; apply A; left; reflexivity|]. split.
      * intros x cx x' X N L M L'. destruct (ref_eqb x r) eqn:Q.
        -- apply ref_eqb_iff in Q. subst x. cbv beta in L. rewrite G in L. injection L as <-. apply B; assumption.
        -- apply ref_eqb_false in Q. apply (C x cx x'); auto. intros [Z|Z]; [congruence|contradiction].
      * intros P R S x X. destruct (D P) with (r := x) as [[<- |K]|K]; auto.
        -- intros y cy M L. apply (S r (c, st) y cy); auto. apply (R r (c, st)); auto.
        -- right. apply (R r (c, st)); auto.
    + exists v. split; [reflexivity|]. split; [apply incl_refl|]. split; [intros x <- L; congruence|]. split; [tauto|]. auto.
Qed.

Lemma visit_reach (W : well_formed s) tr : exists v, visit_value (follow (length (live s)) s) tr [] = Some v /\
  forall r, In r v <-> reach look tr r.
Proof.
  destruct (visit_good _ _ (follow_good W (length (live s))) tr []) as (v & E & (A & B & C & D)).
  { unfold unseen. rewrite <- (map_length (fun x => x) (live s)). etransitivity; [apply (filter_le _ (fun _ => true)); auto|].
    clear. induction (live s) as [|x l IH]; cbn; [lia|]. cbn in IH. lia. }
  exists v. split; [exact E|]. intro r. split.
  - intro I. destruct (D (reach look tr)) with (r := r) as [[]|K]; auto.
    + intros x c M L. exact (reach_root _ _ x c M L).
    + intros x c x' c' R L M L'. exact (reach_step _ _ x c x' c' R L M L').
  - induction 1 as [r c M L|r c r' c' R IH L M L'].
    + apply B; [exact M|]. congruence.
    + apply (C r c r'); auto. congruence.
Qed.
End Visit.

Lemma collect_exact s tr : well_formed s -> exists s', collect tr s = Some s' /\
  (forall r, reach (fun r => get_object r s) tr r \/ In (fst r) (ostrms s) -> get_object r s' = get_object r s) /\
  (forall r, ~ (reach (fun r => get_object r s) tr r \/ In (fst r) (ostrms s)) -> get_object r s' = None).
Proof.
  intros W. destruct (visit_reach s W tr) as (v & E & R). unfold collect. rewrite E. cbv zeta. eexists. split; [reflexivity|].
  destruct W as [W1 W2]. set (keep := fun x : ref * iobj => _).
  pose proof (filter_sorted keep _ W1) as SF.
  assert (K : forall r o, keep (r, o) = true <-> reach (fun r => get_object r s) tr r \/ In (fst r) (ostrms s)).
  { intros r o. unfold keep. cbn [fst]. rewrite orb_true_iff, existsb_ref, existsb_z, R. reflexivity. }
  split; intros r H; rewrite !get_object_get; cbn [live].
  - apply get_ext; [exact SF|exact W1|]. intro o. rewrite filter_In, K. tauto.
  - apply get_none; [exact SF|]. intros o. rewrite filter_In, K. tauto.
Qed.

(** ** C32: appending *)
Lemma fix_refs_shifted d : 0 <= d -> forall o, (forall n g, mentions o (n, g) -> 0 <= n < 2 ^ 32 - d) -> shifted d o (fix_refs d o).
Proof.
  intros D0. induction o as [|b|z|m k0|nm|hx x|a g|l IH|d0 IH] using obj_ind2; intro H; cbn [fix_refs]; try (apply sh_other; exact I).
  - specialize (H a g (mentions_ref a g)). unfold u32. rewrite Z.mod_small by lia. constructor.
  - constructor. induction IH as [|x l HX _ IHl]; [constructor|]. constructor.
    + apply HX. intros n g M. apply (H n g), (mentions_arr _ x); [left; reflexivity|exact M].
    + apply IHl. intros n g M. inversion M as [|? y ? Y MY|]; subst. apply (H n g), (mentions_arr _ y); [right; exact Y|exact MY].
  - constructor. induction IH as [|[k x] l HX _ IHl]; [constructor|]. constructor.
    + cbn. split; [reflexivity|]. apply HX. intros n g M. apply (H n g), (mentions_dict _ k x); [left; reflexivity|exact M].
    + apply IHl. intros n g M. inversion M as [| |? k' y ? Y MY]; subst. apply (H n g), (mentions_dict _ k' y); [right; exact Y|exact MY].
Qed.

Lemma append_frees_live d l s : live (fold_left (fun s r => add_free (u32 (fst r + d), snd r) s) l s) = live s.
Proof. revert s. induction l as [|r l IH]; intro s; cbn [fold_left]; [reflexivity|]. rewrite IH. apply add_free_parts. Qed.
Lemma append_fold d l : forall s, sorted (live s) -> ascending (map fst l) -> (forall r o, In (r, o) l -> 0 <= fst r < 2 ^ 32 - d) -> 0 <= d ->
  let s' := fold_left (append_one d) l s in
  sorted (live s') /\
  (forall n g o st, In ((n, g), (o, st)) l -> get (n + d, g) (live s') = Some (fix_refs d o, st)) /\
  (forall n g, (forall o, ~ In ((n - d, g), o) l) -> get (n, g) (live s') = get (n, g) (live s)).
Proof.
  induction l as [|[[n g] [o st]] l IH]; intros s S A B D; cbn [fold_left].
  - split; [exact S|]. split; [intros ? ? ? ? []|reflexivity].
  - cbn [map fst] in A. apply ascending_cons in A as [A1 A2].
    destruct (IH (append_one d s ((n, g), (o, st)))) as (I1 & I2 & I3).
    + cbn [append_one push live]. apply put_sorted, S.
    + exact A2.
    + intros r x H. apply (B r x). right. exact H.
    + exact D.
    + pose proof (B (n, g) (o, st) ltac:(left; reflexivity)) as BN. cbn [fst] in BN.
      assert (UN : u32 (n + d) = n + d) by (unfold u32; apply Z.mod_small; lia).
      split; [exact I1|]. split.
      * intros n' g' o' st' [H|H].
        -- injection H as <- <- <- <-. rewrite I3.
           ++ cbn [append_one push live]. rewrite UN, put_get, ref_eqb_refl by exact S. reflexivity.
           ++ intros x X. replace (n + d - d) with n in X by lia. apply (below_irrefl (n, g)). apply A1.
              apply (in_map fst) in X. exact X.
        -- apply I2, H.
      * intros n' g' N. rewrite I3.
        -- cbn [append_one push live]. rewrite UN, put_get by exact S.
           destruct (ref_eqb (n', g') (n + d, g)) eqn:E; [|reflexivity]. apply ref_eqb_iff in E. injection E as -> ->.
           exfalso. apply (N (o, st)). left. f_equal. f_equal. lia.
        -- intros x X. apply (N x). right. exact X.
Qed.

Lemma append_exact src s : well_formed s -> well_formed src -> count s <= difference s + 1 ->
  (forall r o, In (r, o) (live s) -> fst r < count s) ->
  (forall r o, In (r, o) (live src) -> 1 <= fst r < 2 ^ 32 - difference s /\ (forall n g, mentions (fst o) (n, g) -> 0 <= n < 2 ^ 32 - difference s)) ->
  (forall r, get_object r s <> None -> get_object r (append src s) = get_object r s) /\
  (forall n g o st, get_object (n, g) src = Some (o, st) ->
     exists o', get_object (n + difference s, g) (append src s) = Some (o', st) /\ shifted (difference s) o o') /\
  (forall n g, get_object (n, g) (append src s) <> None -> get_object (n, g) s <> None \/ get_object (n - difference s, g) src <> None).
Proof.
  intros [W1 W2] [V1 V2] C L B. unfold append. cbv zeta. set (d := difference s) in *.
  assert (D0 : 0 <= d) by (unfold d, difference, u32; apply Z.mod_pos_bound; lia).
  set (s1 := fold_left (fun s r => add_free (u32 (fst r + d), snd r) s) (frees src) s).
  assert (LV : live s1 = live s) by apply append_frees_live.
  destruct (append_fold d (live src) s1) as (I1 & I2 & I3).
  - rewrite LV. exact W1.
  - exact V1.
  - intros r o H. apply B in H. lia.
  - exact D0.
  - rewrite LV in I3.
    assert (NL : forall n g o, n < count s -> ~ In ((n - d, g), o) (live src)).
    { intros n g o H K. apply B in K as [K _]. cbn [fst] in K. lia. }
    split; [|split].
    + intros [n g] G. rewrite get_object_get in *. destruct (get (n, g) (live s)) as [o|] eqn:E; [|congruence].
      rewrite get_object_get, I3, E; [reflexivity|]. apply get_in in E; [|exact W1]. apply L in E. cbn in E. intros x. apply NL. exact E.
    + intros n g o st G. rewrite get_object_get in G. apply get_in in G; [|exact V1]. exists (fix_refs d o).
      rewrite get_object_get. split; [apply I2, G|]. apply B in G as [_ G]. apply fix_refs_shifted; assumption.
    + intros n g G. rewrite !get_object_get in *. destruct (get (n - d, g) (live src)) as [x|] eqn:E; [right; discriminate|left].
      rewrite I3 in G; [exact G|]. apply get_none; assumption.
Qed.

Lemma append_counted src s d : d = Z.of_nat (length (live s) + length (frees s)) -> d < 2 ^ 32 -> well_formed s -> well_formed src -> count s <= d + 1 ->
  (forall r o, In (r, o) (live s) -> fst r < count s) ->
  (forall r o, In (r, o) (live src) -> 1 <= fst r < 2 ^ 32 - d /\ (forall n g, mentions (fst o) (n, g) -> 0 <= n < 2 ^ 32 - d)) ->
  (forall r, get_object r s <> None -> get_object r (append src s) = get_object r s) /\
  (forall n g o st, get_object (n, g) src = Some (o, st) ->
     exists o', get_object (n + d, g) (append src s) = Some (o', st) /\ shifted d o o') /\
  (forall n g, get_object (n, g) (append src s) <> None -> get_object (n, g) s <> None \/ get_object (n - d, g) src <> None).
Proof.
  intros E L. assert (D : difference s = d) by (unfold difference, u32; rewrite <- E; apply Z.mod_small; lia). rewrite <- D. apply append_exact.
Qed.

(** ** C33: the loop inserts what it will visit *)
Fixpoint chain (o : Z -> iobj) (n : nat) (from : Z) : list (ref * iobj) :=
  match n with O => [] | S n' => ((from, 0), o from) :: chain o n' (from + 1) end.
Lemma chain_in o n : forall from x, In x (chain o n from) -> from <= fst (fst x) < from + Z.of_nat n /\ snd (fst x) = 0.
Proof.
  induction n as [|n IH]; intros from x H; [destruct H|]. cbn [chain] in H. destruct H as [<- |H]; [cbn; lia|]. apply IH in H. lia.
Qed.
Lemma chain_put o n v : forall from, put (from + Z.of_nat n, 0) v (chain o n from) = chain o n from ++ [((from + Z.of_nat n, 0), v)].
Proof.
  induction n as [|n IH]; intro from; [reflexivity|]. cbn [chain put app].
  replace (ref_lt (from, 0) (from + Z.of_nat (S n), 0)) with true by (symmetry; apply ref_lt_iff; unfold ref_below; cbn [fst snd]; lia).
  specialize (IH (from + 1)). replace (from + 1 + Z.of_nat n) with (from + Z.of_nat (S n)) in IH by lia. rewrite IH. reflexivity.
Qed.
Lemma chain_snoc o n : forall from, chain o n from ++ [((from + Z.of_nat n, 0), o (from + Z.of_nat n))] = chain o (S n) from.
Proof.
  induction n as [|n IH]; intro from; [cbn; rewrite Z.add_0_r; reflexivity|].
  change (chain o (S (S n)) from) with (((from, 0), o from) :: chain o (S n) (from + 1)). rewrite <- (IH (from + 1)). cbn [chain app].
  replace (from + 1 + Z.of_nat n) with (from + Z.of_nat (S n)) by lia. reflexivity.
Qed.
Lemma chain_lower o n : forall from k, from <= k < from + Z.of_nat n ->
  exists t, lower (k, 0) (chain o n from) = ((k, 0), o k) :: t.
Proof.
  induction n as [|n IH]; intros from k K; [lia|]. cbn [chain lower].
  destruct (Z.eq_dec from k) as [->|N].
  - replace (ref_lt (k, 0) (k, 0)) with false by (symmetry; apply not_true_iff_false; rewrite ref_lt_iff; apply below_irrefl). eauto.
  - replace (ref_lt (from, 0) (k, 0)) with true by (symmetry; apply ref_lt_iff; unfold ref_below; cbn [fst snd]; lia).
    apply IH. lia.
Qed.
(** a cursor just behind [k] is a cursor at [k + 1] *)
Lemma chain_lower_next o n : forall from k, from <= k -> lower (k, 1) (chain o n from) = lower (k + 1, 0) (chain o n from).
Proof.
  induction n as [|n IH]; intros from k K; [reflexivity|]. cbn [chain lower].
  destruct (Z.le_gt_cases from k) as [L|L].
  - replace (ref_lt (from, 0) (k, 1)) with true by (symmetry; apply ref_lt_iff; unfold ref_below; cbn [fst snd]; lia).
    replace (ref_lt (from, 0) (k + 1, 0)) with true by (symmetry; apply ref_lt_iff; unfold ref_below; cbn [fst snd]; lia).
    destruct (Z.eq_dec from k) as [->|N]; [|apply IH; lia].
    destruct n as [|n]; [reflexivity|]. cbn [chain lower].
    replace (ref_lt (k + 1, 0) (k, 1)) with false by (symmetry; apply not_true_iff_false; rewrite ref_lt_iff; unfold ref_below; cbn [fst snd]; lia).
    replace (ref_lt (k + 1, 0) (k + 1, 0)) with false by (symmetry; apply not_true_iff_false; rewrite ref_lt_iff; unfold ref_below; cbn [fst snd]; lia).
    reflexivity.
  - lia.
Qed.

Fixpoint iter_fix (k : nat) (o : obj) : obj := match k with O => o | S k' => fix_refs 1 (iter_fix k' o) end.
Lemma insert_chain v st fuel : forall k c fr un os re, Z.of_nat k + Z.of_nat fuel < 2 ^ 32 - 1 -> (1 <= k)%nat -> 1 <= c ->
  let o := fun z => (iter_fix (Z.to_nat (z - 1)) v, st) in
  insert_loop fuel 1 (Z.of_nat k, 0) (mk_ol (chain o k 1) c fr un os re) = Fuel /\
  (forall j, j = Z.of_nat k - 1 -> 1 <= j -> insert_loop fuel 1 (j, 1) (mk_ol (chain o k 1) c fr un os re) = Fuel).
Proof.
  induction fuel as [|f IH]; intros k c fr un os re K K1 C o; [split; reflexivity|].
  assert (M : insert_loop (S f) 1 (Z.of_nat k, 0) (mk_ol (chain o k 1) c fr un os re) = Fuel).
  { cbn [insert_loop live]. destruct (chain_lower o k 1 (Z.of_nat k) ltac:(lia)) as [t ->].
    assert (EP : append_one 1 (mk_ol (chain o k 1) c fr un os re) ((Z.of_nat k, 0), o (Z.of_nat k)) =
      mk_ol (chain o (S k) 1) (incr_count (1 + Z.of_nat k, 0) c) fr un os re).
    { rewrite <- chain_snoc, <- chain_put. unfold append_one, o at 1, push. cbn [live count frees unavail ostrms reuse].
      replace (u32 (Z.of_nat k + 1)) with (1 + Z.of_nat k) by (unfold u32; rewrite Z.mod_small by lia; lia).
      replace (o (1 + Z.of_nat k)) with (fix_refs 1 (iter_fix (Z.to_nat (Z.of_nat k - 1)) v), st); [reflexivity|].
      unfold o. replace (Z.to_nat (1 + Z.of_nat k - 1)) with (S (Z.to_nat (Z.of_nat k - 1))) by lia. reflexivity. }
    transitivity (insert_loop f 1 (Z.of_nat k, 1) (append_one 1 (mk_ol (chain o k 1) c fr un os re) ((Z.of_nat k, 0), o (Z.of_nat k)))); [reflexivity|].
    rewrite EP.
    assert (NC : 1 <= incr_count (1 + Z.of_nat k, 0) c).
    { unfold incr_count. cbn [fst]. destruct (Z.leb_spec c (1 + Z.of_nat k)); [unfold u32; rewrite Z.mod_small; lia|lia]. }
    destruct (IH (S k) (incr_count (1 + Z.of_nat k, 0) c) fr un os re ltac:(lia) ltac:(lia) NC) as [_ Q].
    apply Q; lia. }
  split; [exact M|]. intros j -> J.
  assert (E : forall s, live s = chain o k 1 -> insert_loop (S f) 1 (Z.of_nat k - 1, 1) s = insert_loop (S f) 1 (Z.of_nat k, 0) s).
  { intros s LS. cbn [insert_loop]. rewrite LS. rewrite chain_lower_next by lia. replace (Z.of_nat k - 1 + 1) with (Z.of_nat k) by lia. reflexivity. }
  rewrite E by reflexivity. exact M.
Qed.
Lemma insert_runs_on v st c n : Z.of_nat n < 2 ^ 32 - 2 -> 1 <= c ->
  insert_objects n (mk_ol [((1, 0), (v, st))] c [] [] [] true) = Fuel.
Proof.
  intros N C. unfold insert_objects. replace (difference _) with 1 by reflexivity.
  destruct (insert_chain v st n 1%nat c [] [] [] true ltac:(lia) ltac:(lia) C) as [H _]. rewrite <- H at 1.
  destruct n as [|n]; reflexivity.
Qed.

(** ** C71 *)
Lemma cleared_live s r : get_object r (clear s) = None.
Proof. reflexivity. Qed.
