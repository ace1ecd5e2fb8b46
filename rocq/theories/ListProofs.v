(** Proofs about the object list. *)
From Coq Require Import String.
From Verif Require Import Base TokModel ChainProofs ObjProofs ListModel ListSpec.
Local Open Scope Z_scope.

(** ** References *)
Lemma ref_lt_iff a b : ref_lt a b = true <-> ref_below a b.
Proof. unfold ref_lt, ref_below. destruct (Z.eqb_spec (fst a) (fst b)); rewrite Z.ltb_lt; lia. Qed.
Lemma ref_eqb_iff a b : ref_eqb a b = true <-> a = b.
Proof.
  unfold ref_eqb. rewrite andb_true_iff, !Z.eqb_eq. destruct a, b. cbn. split; [intros [-> ->]; reflexivity|intros [= -> ->]; auto].
Qed.
Lemma ref_eqb_refl a : ref_eqb a a = true. Proof. apply ref_eqb_iff. reflexivity. Qed.
Lemma ref_eqb_false a b : ref_eqb a b = false <-> a <> b.
Proof. rewrite <- (not_true_iff_false (ref_eqb a b)), ref_eqb_iff. reflexivity. Qed.
Lemma below_trans a b c : ref_below a b -> ref_below b c -> ref_below a c.
Proof. unfold ref_below. lia. Qed.
Lemma below_irrefl a : ~ ref_below a a. Proof. unfold ref_below. lia. Qed.
Lemma ref_ext (a b : ref) : fst a = fst b -> snd a = snd b -> a = b.
Proof. destruct a, b. cbn. intros -> ->. reflexivity. Qed.
Lemma below_total a b : ref_below a b \/ a = b \/ ref_below b a.
Proof.
  unfold ref_below. destruct (Z.lt_trichotomy (fst a) (fst b)) as [H|[H|H]]; [auto| |auto].
  destruct (Z.lt_trichotomy (snd a) (snd b)) as [K|[K|K]]; [auto|right; left; apply ref_ext; assumption|auto].
Qed.
Lemma ref_lt_cases a b : (ref_lt a b = true /\ ref_below a b) \/ (ref_lt a b = false /\ ref_lt b a = true /\ ref_below b a) \/
  (ref_lt a b = false /\ ref_lt b a = false /\ a = b).
Proof.
  destruct (below_total a b) as [H|[-> |H]].
  - left. split; [apply ref_lt_iff|]; exact H.
  - right. right. assert (N : ref_lt b b = false) by (apply not_true_iff_false; rewrite ref_lt_iff; apply below_irrefl). auto.
  - right. left. split; [apply not_true_iff_false; rewrite ref_lt_iff; intro K; apply (below_irrefl a), (below_trans a b a K H)|].
    split; [apply ref_lt_iff|]; exact H.
Qed.
Lemma existsb_ref r l : existsb (ref_eqb r) l = true <-> In r l.
Proof.
  rewrite existsb_exists. split.
  - intros (x & H & E). apply ref_eqb_iff in E. subst x. exact H.
  - intro H. exists r. split; [exact H|apply ref_eqb_refl].
Qed.
Lemma existsb_z n l : existsb (Z.eqb n) l = true <-> In n l.
Proof.
  rewrite existsb_exists. split.
  - intros (x & H & E). apply Z.eqb_eq in E. subst x. exact H.
  - intro H. exists n. split; [exact H|apply Z.eqb_refl].
Qed.

(** ** Sorted lists *)
Lemma ascending_cons a l : ascending (a :: l) <-> (forall b, In b l -> ref_below a b) /\ ascending l.
Proof.
  revert a. induction l as [|b l IH]; intro a; cbn [ascending] in *.
  - split; [intros _; split; [intros b []|exact I]|auto].
  - split.
    + intros [H K]. split; [|exact K]. intros c [<- |C]; [exact H|]. apply (below_trans a b c H).
      apply IH in K. apply K, C.
    + intros [H K]. split; [apply H; left; reflexivity|exact K].
Qed.
Section Assoc.
Context {A : Type}.
Implicit Types l : list (ref * A).
Definition sorted l : Prop := ascending (map fst l).
Lemma sorted_cons x l : sorted (x :: l) <-> (forall y, In y l -> ref_below (fst x) (fst y)) /\ sorted l.
Proof.
  unfold sorted. cbn [map]. rewrite ascending_cons. split; intros [H K]; (split; [|exact K]).
  - intros y Y. apply H. apply in_map. exact Y.
  - intros b B. apply in_map_iff in B as (y & <- & Y). apply H, Y.
Qed.
Lemma sorted_fun l r o o' : sorted l -> In (r, o) l -> In (r, o') l -> o = o'.
Proof.
  induction l as [|x l IH]; intros S H K; [destruct H|]. apply sorted_cons in S as [S1 S2].
  destruct H as [-> |H], K as [E|K].
  - injection E. auto.
  - exfalso. apply (below_irrefl r). exact (S1 (r, o') K).
  - subst x. exfalso. apply (below_irrefl r). exact (S1 (r, o) H).
  - apply IH; assumption.
Qed.
Lemma in_lower r l x : In x (lower r l) -> In x l.
Proof. induction l as [|[r' o'] l IH]; cbn [lower]; [auto|]. destruct (ref_lt r' r); [right; apply IH; assumption|auto]. Qed.
Lemma lower_spec r l : sorted l ->
  match lower r l with
  | [] => forall x, In x l -> ref_below (fst x) r
  | y :: _ => In y l /\ ~ ref_below (fst y) r /\ (forall x, In x l -> ref_below (fst x) r \/ x = y \/ ref_below (fst y) (fst x))
  end.
Proof.
  induction l as [|[r' o'] l IH]; cbn [lower]; intro S; [intros x []|]. apply sorted_cons in S as [S1 S2].
  destruct (ref_lt r' r) eqn:E.
  - apply ref_lt_iff in E. specialize (IH S2). destruct (lower r l) as [|y t].
    + intros x [<- |H]; [exact E|apply IH, H].
    + destruct IH as (I1 & I2 & I3). split; [right; exact I1|]. split; [exact I2|].
      intros x [<- |H]; [left; exact E|apply I3, H].
  - split; [left; reflexivity|]. split; [rewrite <- ref_lt_iff; cbn [fst]; congruence|].
    intros x [<- |H]; [auto|]. right. right. apply S1, H.
Qed.
Definition get r l : option A := match lower r l with (r', o) :: _ => if ref_eqb r' r then Some o else None | [] => None end.
Lemma get_in r o l : sorted l -> get r l = Some o <-> In (r, o) l.
Proof.
  intro S. unfold get. pose proof (lower_spec r l S) as L. destruct (lower r l) as [|[r' o'] t].
  - split; [discriminate|]. intro H. exfalso. apply (below_irrefl r). exact (L _ H).
  - destruct L as (L1 & L2 & L3). cbn [fst] in *. destruct (ref_eqb r' r) eqn:E.
    + apply ref_eqb_iff in E. subst r'. split; [intros [= ->]; exact L1|]. intro H. f_equal. apply (sorted_fun l r); assumption.
    + split; [discriminate|]. intro H. exfalso. apply ref_eqb_false in E. destruct (L3 _ H) as [B|[B|B]]; cbn [fst] in B.
      * apply (below_irrefl _ B).
      * injection B. intros _ B'. congruence.
      * apply L2, B.
Qed.
Lemma get_none r l : sorted l -> get r l = None <-> forall o, ~ In (r, o) l.
Proof.
  intro S. destruct (get r l) as [o|] eqn:E.
  - apply get_in in E; [|exact S]. split; [discriminate|]. intro H. exfalso. apply (H o), E.
  - split; [|reflexivity]. intros _ o H. apply get_in in H; [congruence|exact S].
Qed.
Lemma get_ext l l' : sorted l -> sorted l' -> forall r r', (forall o, In (r, o) l <-> In (r', o) l') -> get r l = get r' l'.
Proof.
  intros S S' r r' H. destruct (get r' l') as [o|] eqn:E.
  - apply get_in; [exact S|]. apply H. apply get_in; assumption.
  - apply get_none; [exact S|]. intros o K. apply H in K. apply get_in in K; [congruence|exact S'].
Qed.
Lemma put_in r o l x : sorted l -> In x (put r o l) <-> x = (r, o) \/ (In x l /\ fst x <> r).
Proof.
  induction l as [|[r' o'] l IH]; cbn [put]; intro S.
  - cbn. intuition congruence.
  - apply sorted_cons in S as [S1 S2]. cbn [fst] in S1.
    destruct (ref_lt_cases r' r) as [[E B]|[[E [E' B]]|[E [E' B]]]]; rewrite ?E, ?E'.
    + cbn [In]. rewrite (IH S2). split.
      * intros [<- |[H|[H K]]]; [|auto|auto]. right. split; [auto|]. cbn. intros ->. apply (below_irrefl r B).
      * intros [H|[[<- |H] K]]; auto.
    + cbn [In]. split.
      * intros [<- |[<- |H]]; [auto| |].
        -- right. split; [auto|]. cbn. intros ->. apply (below_irrefl r B).
        -- right. split; [auto|]. intros <-. apply (below_irrefl (fst x)). exact (below_trans _ _ _ B (S1 _ H)).
      * intros [->|[H _]]; auto.
    + subst r'. cbn [In]. split.
      * intros [<- |H]; [auto|]. right. split; [auto|]. intros <-. apply (below_irrefl (fst x)). exact (S1 _ H).
      * intros [->|[[<- |H] K]]; [auto|cbn in K; congruence|auto].
Qed.
Lemma put_sorted r o l : sorted l -> sorted (put r o l).
Proof.
  induction l as [|[r' o'] l IH]; cbn [put]; intro S.
  - cbn. auto.
  - pose proof S as S0. apply sorted_cons in S as [S1 S2]. cbn [fst] in S1.
    destruct (ref_lt_cases r' r) as [[E B]|[[E [E' B]]|[E [E' B]]]]; rewrite ?E, ?E'.
    + apply sorted_cons. split; [|apply IH, S2]. intros y Y. apply put_in in Y as [-> |[Y _]]; [exact B|apply S1, Y|exact S2].
    + apply sorted_cons. split; [|exact S0]. intros y [<- |Y]; [exact B|]. exact (below_trans _ _ _ B (S1 _ Y)).
    + subst r'. apply sorted_cons. split; [exact S1|exact S2].
Qed.
Lemma erase_in r l x : sorted l -> In x (erase r l) <-> In x l /\ fst x <> r.
Proof.
  induction l as [|[r' o'] l IH]; cbn [erase]; intro S; [cbn; tauto|].
  apply sorted_cons in S as [S1 S2]. cbn [fst] in S1. destruct (ref_eqb r' r) eqn:E.
  - apply ref_eqb_iff in E. subst r'. cbn [In]. split.
    + intro H. split; [auto|]. intros <-. apply (below_irrefl (fst x)). exact (S1 _ H).
    + intros [[<- |H] K]; [cbn in K; congruence|exact H].
  - apply ref_eqb_false in E. cbn [In]. rewrite (IH S2). split.
    + intros [<- |[H K]]; auto.
    + intros [[<- |H] K]; auto.
Qed.
Lemma erase_sorted r l : sorted l -> sorted (erase r l).
Proof.
  induction l as [|[r' o'] l IH]; cbn [erase]; intro S; [exact I|].
  apply sorted_cons in S as [S1 S2]. destruct (ref_eqb r' r); [exact S2|]. apply sorted_cons. split; [|apply IH, S2].
  intros y Y. apply erase_in in Y as [Y _]; [apply S1, Y|exact S2].
Qed.
Lemma filter_sorted (f : ref * A -> bool) l : sorted l -> sorted (filter f l).
Proof.
  induction l as [|x l IH]; cbn [filter]; intro S; [exact I|]. apply sorted_cons in S as [S1 S2].
  destruct (f x); [|apply IH, S2]. apply sorted_cons. split; [|apply IH, S2]. intros y Y. apply S1.
  apply filter_In in Y. apply Y.
Qed.
End Assoc.

Lemma get_object_get r s : get_object r s = get r (live s).
Proof. reflexivity. Qed.

(** ** The free list *)
Lemma free_insert_in r l x : In x (free_insert r l) <-> x = r \/ In x l.
Proof.
  induction l as [|r' l IH]; cbn [free_insert]; [cbn; intuition congruence|].
  destruct (ref_lt_cases r' r) as [[E B]|[[E [E' B]]|[E [E' B]]]]; rewrite ?E, ?E'; cbn [In].
  - rewrite IH. intuition congruence.
  - intuition congruence.
  - subst r'. intuition congruence.
Qed.
Lemma free_insert_sorted r l : ascending l -> ascending (free_insert r l).
Proof.
  induction l as [|r' l IH]; cbn [free_insert]; intro S; [cbn; auto|]. pose proof S as S0. apply ascending_cons in S as [S1 S2].
  destruct (ref_lt_cases r' r) as [[E B]|[[E [E' B]]|[E [E' B]]]]; rewrite ?E, ?E'.
  - apply ascending_cons. split; [|apply IH, S2]. intros y Y. apply free_insert_in in Y as [-> |Y]; [exact B|apply S1, Y].
  - apply ascending_cons. split; [|exact S0]. intros y [<- |Y]; [exact B|]. exact (below_trans _ _ _ B (S1 _ Y)).
  - exact S0.
Qed.

Lemma add_free_parts r s : live (add_free r s) = live s /\ unavail (add_free r s) = unavail s /\ ostrms (add_free r s) = ostrms s /\
  reuse (add_free r s) = reuse s /\ (count (add_free r s) = count s \/ count (add_free r s) = incr_count r (count s)) /\
  (ascending (frees s) -> ascending (frees (add_free r s))) /\ (forall x, In x (frees (add_free r s)) <-> x = r \/ In x (frees s)) /\
  (In r (frees s) \/ count (add_free r s) = incr_count r (count s)).
Proof.
  unfold add_free. destruct (existsb (ref_eqb r) (frees s)) eqn:E.
  - apply existsb_ref in E. do 4 (split; [reflexivity|]). split; [auto|]. split; [auto|]. split; [|auto].
    intro x. split; [auto|]. intros [-> |H]; auto.
  - do 4 (split; [reflexivity|]). split; [auto|]. split; [apply free_insert_sorted|]. split; [|auto]. intro x. apply free_insert_in.
Qed.
Lemma safe_add_live r s : live (safe_add_free r s) = live s.
Proof. unfold safe_add_free, try_add_free. destruct (65535 <=? snd r + 1); [reflexivity|apply add_free_parts]. Qed.
Lemma safe_add_ostrms r s : ostrms (safe_add_free r s) = ostrms s.
Proof. unfold safe_add_free, try_add_free. destruct (65535 <=? snd r + 1); [reflexivity|apply add_free_parts]. Qed.
Lemma safe_add_sorted r s : ascending (frees s) -> ascending (frees (safe_add_free r s)).
Proof. unfold safe_add_free, try_add_free. destruct (65535 <=? snd r + 1); [auto|apply add_free_parts]. Qed.

(** ** The invariant of histories. [P] is the set of references in use. *)
Record inv (h : list ref) (P : ref -> Prop) (s : olist) : Prop := mk_inv {
  i_cnt : 1 <= count s < 2 ^ 32;
  i_hist : forall r, In r h -> 1 <= fst r < count s /\ 0 <= snd r;
  i_live : forall r, P r -> In r h;
  i_max : forall r r', P r -> In r' h -> fst r' = fst r -> snd r' <= snd r;
  i_free : forall r, In r (frees s) -> 1 <= fst r < count s /\ 0 <= snd r < 65535;
  i_fmax : forall r r', In r (frees s) -> In r' h -> fst r' = fst r -> snd r' < snd r;
  i_disj : forall r r', P r -> In r' (frees s) -> fst r <> fst r';
  i_funi : forall r r', In r (frees s) -> In r' (frees s) -> fst r = fst r' -> r = r';
  i_un : forall u, In u (unavail s) -> 65535 <= u;
}.
Lemma inv_weaken h (P Q : ref -> Prop) s : inv h P s -> (forall r, Q r -> P r) -> inv h Q s.
Proof. intros I H. destruct I. split; eauto. Qed.
Lemma inv_same h P s s' : inv h P s -> count s' = count s -> (forall r, In r (frees s') -> In r (frees s)) ->
  (forall u, In u (unavail s') -> In u (unavail s)) -> inv h P s'.
Proof. intros I C F U. destruct I. split; try rewrite C; eauto. Qed.

Lemma incr_max r c : 1 <= c -> 0 <= fst r < 2 ^ 32 - 1 -> c <= incr_count r c /\ fst r < incr_count r c /\
  (incr_count r c = c \/ incr_count r c = fst r + 1).
Proof.
  intros C R. unfold incr_count. destruct (Z.leb_spec c (fst r)); [|lia]. unfold u32. rewrite Z.mod_small by lia. lia.
Qed.

(** freeing the number of an object in use *)
Lemma inv_release h P s r : inv h P s -> P r -> inv h (fun x => P x /\ x <> r) (safe_add_free r s).
Proof.
  intros I HP. pose proof (i_live _ _ _ I r HP) as HR. pose proof (i_hist _ _ _ I r HR) as [H1 H2].
  unfold safe_add_free, try_add_free. destruct (Z.leb_spec 65535 (snd r + 1)) as [L|L].
  - apply (inv_weaken _ P); [|tauto]. destruct I. split; cbn [count frees unavail]; auto.
    intros u [<- |U]; auto.
  - destruct (add_free_parts (fst r, snd r + 1) s) as (_ & U & _ & _ & C & _ & F & _).
    assert (CE : count (add_free (fst r, snd r + 1) s) = count s).
    { destruct C as [C|C]; [exact C|]. rewrite C. unfold incr_count. cbn [fst]. destruct (Z.leb_spec (count s) (fst r)); [lia|reflexivity]. }
    assert (NF : forall x, In x (frees s) -> fst x <> fst r).
    { intros x X E. apply (i_disj _ _ _ I r x HP X). auto. }
    destruct I as [i1 i2 i3 i4 i5 i6 i7 i8 i9]. split; rewrite ?CE, ?U; auto.
    + intros x [X _]. auto.
    + intros x y [X _]. auto.
    + intros x X. apply F in X as [-> |X]; [cbn; lia|auto].
    + intros x y X Y E. apply F in X as [-> |X]; [|eauto]. cbn in *. pose proof (i4 r y HP Y E). lia.
    + intros x y [X N] Y. apply F in Y as [-> |Y]; [|eauto]. cbn. intro E. apply N.
      pose proof (i4 r x HP (i3 x X) E). pose proof (i4 x r X HR (eq_sym E)). apply ref_ext; lia.
    + intros x y X Y E. apply F in X as [-> |X]; apply F in Y as [-> |Y]; auto.
      * exfalso. apply (NF y Y). symmetry. exact E.
      * exfalso. apply (NF x X). exact E.
Qed.
Lemma inv_releases h s l : forall P, inv h P s -> (forall r, In r l -> P r) -> NoDup l ->
  inv h (fun x => P x /\ ~ In x l) (fold_left (fun s r => safe_add_free r s) l s).
Proof.
  revert s. induction l as [|r l IH]; intros s P I H N; cbn [fold_left].
  - apply (inv_weaken _ P); [exact I|tauto].
  - apply NoDup_cons_iff in N as [N1 N2].
    apply (inv_weaken _ (fun x => (P x /\ x <> r) /\ ~ In x l)).
    + apply IH; [apply inv_release; [exact I|apply H; left; reflexivity]| |exact N2].
      intros x X. split; [apply H; right; exact X|]. intros ->. contradiction.
    + intros x [X Y]. split; [split; [exact X|]|]; intro E; apply Y; [left; auto|right; exact E].
Qed.

Lemma hist_wf_inv h s : hist h s -> well_formed s /\ inv h (fun r => exists o, In (r, o) (live s)) s.
Proof.
  assert (KeepCollect : forall h s tr s', well_formed s -> inv h (fun r => exists o, In (r, o) (live s)) s ->
    collect tr s = Some s' -> well_formed s' /\ inv h (fun r => exists o, In (r, o) (live s')) s').
  { intros h0 s0 tr s' [W1 W2] I C. unfold collect in C. destruct (visit_value _ _ _) as [seen|]; [|discriminate C].
    set (keep := fun x : ref * iobj => _) in C.
    assert (FE : forall l s, fold_left (fun s x => if keep x then s else safe_add_free (fst x) s) l s =
                             fold_left (fun s r => safe_add_free r s) (map fst (filter (fun x => negb (keep x)) l)) s).
    { induction l as [|x l IH]; intro s1; cbn [fold_left filter map]; [reflexivity|].
      destruct (keep x); cbn [negb map fold_left]; apply IH. }
    rewrite FE in C. cbv zeta in C. injection C as <-. set (dead := map fst (filter (fun x => negb (keep x)) (live s0))). set (s1 := fold_left (fun s r => safe_add_free r s) dead s0).
    assert (FA : forall l s, ascending (frees s) -> ascending (frees (fold_left (fun s r => safe_add_free r s) l s))).
    { induction l as [|r l IH]; intros s2 A; cbn [fold_left]; [exact A|]. apply IH, safe_add_sorted, A. }
    split; [split; cbn [live frees]; [apply filter_sorted, W1|apply FA, W2]|].
    assert (ND : NoDup dead).
    { unfold dead. pose proof (filter_sorted (fun x => negb (keep x)) _ W1) as SF. unfold sorted in SF.
      revert SF. generalize (map fst (filter (fun x => negb (keep x)) (live s0))). intro l. induction l as [|r l IH]; intro A; [constructor|].
      apply ascending_cons in A as [A1 A2]. constructor; [|apply IH, A2]. intro H. apply (below_irrefl r), A1, H. }
    pose proof (inv_releases h0 s0 dead _ I) as R. specialize (R ltac:(intros r H; unfold dead in H; apply in_map_iff in H as ([r' o] & <- & H);
      apply filter_In in H as [H _]; exists o; exact H) ND). fold s1 in R.
    apply (inv_weaken _ (fun x => (exists o, In (x, o) (live s0)) /\ ~ In x dead)).
    - apply (inv_same _ _ s1); auto.
    - cbn [live]. intros r [o H]. apply filter_In in H as [H K]. split; [exists o; exact H|].
      intro D. unfold dead in D. apply in_map_iff in D as ([r' o'] & E & D). cbn in E. subst r'. apply filter_In in D as [D D'].
      rewrite (sorted_fun _ r o' o W1 D H) in D'. rewrite K in D'. discriminate D'. }
  induction 1 as [|h s o r s' H [[W1 W2] I] R C|h s r mark x s' H [[W1 W2] I] C|h s r o H [[W1 W2] I] R F|h s r H [[W1 W2] I] R F
                 |h s b H [[W1 W2] I]|h s n H [W I]|h s tr s' H [W I] C|h s r o old s' H [[W1 W2] I] G C].
  - split; [split; exact I|]. split; cbn [empty_list count frees unavail live]; try lia; intros;
      repeat match goal with H : exists _, _ |- _ => destruct H | H : In _ [] |- _ => destruct H end.
  - (* create *)
    unfold create in C. apply bind_ok in C as ([r0 s0] & NF & E). cbn [fst snd] in E. injection E as <- <-.
    assert (CASES : (exists t, frees s = r0 :: t /\ s0 = mk_ol (live s) (count s) t (unavail s) (ostrms s) (reuse s)) \/
                    (r0 = (count s, 0) /\ s0 = s /\ count s <= 65534)).
    { pose proof (i_cnt _ _ _ I) as IC. unfold next_free in NF.
      assert (NN : count s <= 65534 -> next_num (Z.to_nat 65536) (u16 (count s)) (unavail s) = Ok (count s)).
      { intro L. replace (Z.to_nat 65536) with (S (Z.to_nat 65535)) by lia. cbn [next_num]. unfold u16. rewrite Z.mod_small by lia.
        destruct (existsb (Z.eqb (count s)) (unavail s)) eqn:E; [|reflexivity]. apply existsb_z in E. apply (i_un _ _ _ I) in E. lia. }
      destruct (frees s) as [|f t] eqn:FR.
      - right. destruct R as [R|[_ R]]; [|congruence]. rewrite (NN R) in NF. cbn in NF. injection NF as <- <-. auto.
      - destruct (reuse s) eqn:RE.
        + left. injection NF as <- <-. exists t. auto.
        + right. destruct R as [R|[R _]]; [|congruence]. rewrite (NN R) in NF. cbn in NF. injection NF as <- <-. auto. }
    assert (W1' : sorted (put r0 o (live s0))) by (apply put_sorted; destruct CASES as [(t & _ & ->)|(_ & -> & _)]; exact W1).
    assert (LV : live s0 = live s) by (destruct CASES as [(t & _ & ->)|(_ & -> & _)]; reflexivity).
    assert (PI : forall x, (exists o', In (x, o') (put r0 o (live s))) -> x = r0 \/ exists o', In (x, o') (live s)).
    { intros x [o' X]. apply put_in in X as [X|[X _]]; [left; congruence|right; exists o'; exact X|exact W1]. }
    destruct I as [i1 i2 i3 i4 i5 i6 i7 i8 i9].
    destruct CASES as [(t & FR & ES)|(ER & -> & L)].
    + rewrite FR in *. subst s0. cbn [live] in *. pose proof (i5 r0 ltac:(left; reflexivity)) as [N1 N2].
      apply ascending_cons in W2 as [W3 W4]. split; [split; cbn [live push frees]; assumption|].
      assert (CE : count (push r0 o (mk_ol (live s) (count s) t (unavail s) (ostrms s) (reuse s))) = count s).
      { cbn [push count]. unfold incr_count. destruct (Z.leb_spec (count s) (fst r0)); [lia|reflexivity]. }
      assert (NT : forall x, In x t -> fst x <> fst r0).
      { intros x X E. pose proof (i8 x r0 ltac:(right; exact X) ltac:(left; reflexivity) E) as ->. apply (below_irrefl r0), W3, X. }
      split; rewrite ?CE; cbn [push live frees unavail]; auto.
      * intros x [<- |X]; [lia|auto].
      * intros x X. apply PI in X as [-> |X]; [left; reflexivity|right; auto].
      * intros x y X [<- |Y] E; apply PI in X as [-> |X].
        -- lia.
        -- exfalso. apply (i7 x r0 X ltac:(left; reflexivity)). auto.
        -- pose proof (i6 r0 y ltac:(left; reflexivity) Y E). lia.
        -- eauto.
      * intros x X. apply i5. right. exact X.
      * intros x y X [<- |Y] E; [exfalso; apply (NT x X); auto|]. apply (i6 x y); [right; exact X|exact Y|exact E].
      * intros x y X Y. apply PI in X as [-> |X]; [intro E; apply (NT y Y); auto|]. apply i7; [exact X|right; exact Y].
      * intros x y X Y. apply i8; right; assumption.
    + subst r0. split; [split; cbn [live push frees]; assumption|].
      assert (CE : count (push (count s, 0) o s) = count s + 1).
      { cbn [push count]. unfold incr_count. cbn [fst]. rewrite Z.leb_refl. unfold u32. apply Z.mod_small. lia. }
      assert (HL : forall x, In x h -> fst x < count s) by (intros x X; apply i2 in X; lia).
      split; rewrite ?CE; cbn [push live frees unavail]; auto.
      * lia.
      * intros x [<- |X]; [cbn; lia|]. pose proof (i2 x X). lia.
      * intros x X. apply PI in X as [-> |X]; [left; reflexivity|right; auto].
      * intros x y X [<- |Y] E; apply PI in X as [-> |X]; cbn [fst snd] in *.
        -- lia.
        -- apply i3, HL in X. lia.
        -- apply HL in Y. lia.
        -- eauto.
      * intros x X. pose proof (i5 x X). lia.
      * intros x y X [<- |Y] E; [|eauto]. cbn [fst] in E. pose proof (i5 x X). lia.
      * intros x y X Y. apply PI in X as [-> |X]; [|eauto]. cbn. pose proof (i5 y Y). lia.
  - (* remove *)
    unfold remove in C. rewrite get_object_get in C. destruct (get r (live s)) as [old|] eqn:G.
    2:{ injection C as <- <-. split; [split; assumption|exact I]. }
    destruct (existsb (Z.eqb (fst r)) (ostrms s)); [discriminate C|]. cbv zeta in C. injection C as <- <-.
    apply get_in in G; [|exact W1].
    assert (LV : live (if mark then safe_add_free r s else s) = live s) by (destruct mark; [apply safe_add_live|reflexivity]).
    split.
    + split; cbn [live frees]; [rewrite LV; apply erase_sorted, W1|]. destruct mark; [apply safe_add_sorted|]; exact W2.
    + apply (inv_weaken _ (fun x => (exists o, In (x, o) (live s)) /\ x <> r)).
      * destruct mark; [|apply (inv_same _ _ s); auto; apply (inv_weaken _ _ _ _ I); tauto].
        apply (inv_same _ _ (safe_add_free r s)); auto. apply inv_release; [exact I|exists old; exact G].
      * cbn [live]. rewrite LV. intros x [o X]. apply erase_in in X as [X N]; [|exact W1]. split; [exists o; exact X|exact N].
  - (* load *)
    destruct R as [R1 R2]. split; [split; cbn [push live frees]; [apply put_sorted, W1|exact W2]|].
    assert (PI : forall x, (exists o', In (x, o') (put r o (live s))) -> x = r \/ exists o', In (x, o') (live s)).
    { intros x [o' X]. apply put_in in X as [X|[X _]]; [left; congruence|right; exists o'; exact X|exact W1]. }
    destruct I as [i1 i2 i3 i4 i5 i6 i7 i8 i9]. destruct (incr_max r (count s) ltac:(lia) ltac:(lia)) as (M1 & M2 & M3).
    split; cbn [push live count frees unavail]; auto.
    + lia.
    + intros x [<- |X]; [lia|]. pose proof (i2 x X). lia.
    + intros x X. apply PI in X as [-> |X]; [left; reflexivity|right; auto].
    + intros x y X [<- |Y] E; apply PI in X as [-> |X].
      * lia.
      * exfalso. apply (F x); [left; auto|auto].
      * exfalso. apply (F y); auto.
      * eauto.
    + intros x X. pose proof (i5 x X). lia.
    + intros x y X [<- |Y] E; [exfalso; apply (F x); auto|eauto].
    + intros x y X Y. apply PI in X as [-> |X]; [intro E; apply (F y); auto|eauto].
  - (* free *)
    destruct R as [R1 R2]. split; [split; [rewrite safe_add_live; exact W1|apply safe_add_sorted, W2]|]. rewrite safe_add_live.
    unfold safe_add_free, try_add_free. destruct (Z.leb_spec 65535 (snd r + 1)) as [L|L].
    + destruct I. split; cbn [count frees unavail]; auto. intros u [<- |U]; auto.
    + destruct (add_free_parts (fst r, snd r + 1) s) as (_ & U & _ & _ & C & _ & FI & _).
      destruct I as [i1 i2 i3 i4 i5 i6 i7 i8 i9]. destruct (incr_max (fst r, snd r + 1) (count s) ltac:(lia) ltac:(cbn; lia)) as (M1 & M2 & M3).
      cbn [fst] in M2, M3.
      assert (CR : count s <= count (add_free (fst r, snd r + 1) s) < 2 ^ 32) by (destruct C as [C|C]; rewrite C; lia).
      assert (CF : fst r < count (add_free (fst r, snd r + 1) s)).
      { destruct (add_free_parts (fst r, snd r + 1) s) as (_ & _ & _ & _ & _ & _ & _ & [Q|Q]); [|rewrite Q; lia].
        apply i5 in Q. cbn in Q. lia. }
      split; rewrite ?U; auto.
      * lia.
      * intros x X. pose proof (i2 x X). lia.
      * intros x X. apply FI in X as [-> |X]; [cbn; lia|]. pose proof (i5 x X). lia.
      * intros x y X Y E. apply FI in X as [-> |X]; [exfalso; apply (F y); auto|eauto].
      * intros x y X Y. apply FI in Y as [-> |Y]; [|eauto]. cbn. apply F. left. auto.
      * intros x y X Y E. apply FI in X as [-> |X]; apply FI in Y as [-> |Y]; auto.
        -- exfalso. apply (F y); [right; exact Y|]. symmetry. exact E.
        -- exfalso. apply (F x); [right; exact X|]. exact E.
  - split; [split; cbn [set_reuse live frees]; [exact W1|destruct b; [exact W2|exact Logic.I]]|].
    apply (inv_same _ _ s); auto. cbn. destruct b; [auto|intros r []].
  - split; [exact W|]. apply (inv_same _ _ s); auto.
  - exact (KeepCollect h s tr s' W I C).
  - (* replace *)
    unfold replace in C. rewrite get_object_get in G. unfold get in G. pose proof (lower_spec r (live s) W1) as LS.
    destruct (lower r (live s)) as [|[r' o'] t] eqn:LW; [congruence|]. destruct (ref_eqb r' r) eqn:E; [|congruence].
    apply ref_eqb_iff in E. subst r'. cbn [negb andb] in C. cbv zeta in C. injection C as _ <-.
    destruct LS as (L1 & _ & _). pose proof (erase_sorted r _ W1) as SE.
    assert (HR : In r h) by (apply (i_live _ _ _ I); exists o'; exact L1).
    assert (CE : incr_count r (count s) = count s).
    { apply (i_hist _ _ _ I) in HR. unfold incr_count. destruct (Z.leb_spec (count s) (fst r)); [lia|reflexivity]. }
    split; [split; cbn [live frees]; [apply put_sorted, SE|exact W2]|].
    apply (inv_weaken _ (fun x => exists o, In (x, o) (live s))); [apply (inv_same _ _ s); auto|].
    cbn [live]. intros x [y X]. apply put_in in X as [X|[X _]]; [exists o'; injection X as -> _; exact L1| |exact SE].
    apply erase_in in X as [X _]; [exists y; exact X|exact W1].
Qed.
