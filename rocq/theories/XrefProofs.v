(** The blocks of the writer hold runs of consecutive numbers *)
From Coq Require Import String Permutation Lia.
From Verif Require Import Base TokModel WriteModel DateModel ListModel XrefModel XrefSpec.
Local Open Scope Z_scope.

Notation ent := (ref * option Z)%type.
Definition used_part (e : list ent) : list (ref * Z) :=
  flat_map (fun x => match snd x with Some off => [(fst x, off)] | None => [] end) e.
Definition free_part (e : list ent) : list ref :=
  flat_map (fun x => match snd x with Some _ => [] | None => [fst x] end) e.
Definition num (x : ent) : Z := fst (fst x).
Fixpoint run (a : Z) (e : list ent) : Prop :=
  match e with [] => True | x :: t => num x = a /\ run (a + 1) t end.
Notation len e := (Z.of_nat (length e)).

Lemma used_app a b : used_part (a ++ b) = used_part a ++ used_part b.
Proof. apply flat_map_app. Qed.
Lemma free_app a b : free_part (a ++ b) = free_part a ++ free_part b.
Proof. apply flat_map_app. Qed.
Lemma run_app a e f : run a (e ++ f) <-> run a e /\ run (a + len e) f.
Proof.
  revert a; induction e as [|x e IH]; intros a; cbn [app run length].
  - rewrite Z.add_0_r; tauto.
  - rewrite IH, Nat2Z.inj_succ. replace (a + 1 + len e) with (a + Z.succ (len e)) by lia. tauto.
Qed.
Lemma run_in a e x : run a e -> In x e -> a <= num x < a + len e.
Proof.
  revert a; induction e as [|y e IH]; cbn [run length]; intros a H I; [easy|].
  destruct H as [H1 H2]; rewrite Nat2Z.inj_succ; destruct I as [-> | I]; [lia|].
  specialize (IH _ H2 I); lia.
Qed.
Lemma run_has a e n : run a e -> a <= n < a + len e -> In n (map num e).
Proof.
  revert a; induction e as [|y e IH]; cbn [run length map In]; intros a H I; [lia|].
  destruct H as [H1 H2]; rewrite Nat2Z.inj_succ in I.
  destruct (Z.eq_dec n a); [left; lia|right; apply (IH (a + 1)); [easy|lia]].
Qed.
Lemma run_nth a e n : run a e -> a <= n < a + len e ->
  exists x, nth_error e (Z.to_nat (n - a)) = Some x /\ num x = n.
Proof.
  revert a; induction e as [|y e IH]; cbn [run length]; intros a H I; [lia|].
  destruct H as [H1 H2]; rewrite Nat2Z.inj_succ in I.
  destruct (Z.eq_dec n a) as [-> | N].
  - rewrite Z.sub_diag; exists y; easy.
  - destruct (IH (a + 1) H2) as (x & X & Y); [lia|].
    exists x; split; [|easy]. replace (Z.to_nat (n - a)) with (S (Z.to_nat (n - (a + 1)))) by lia. exact X.
Qed.

(** A block holds a run; the block of an incremental update also counts the number 0 *)
Definition rep (b : xblock) (e : list ent) : Prop :=
  xitems b = used_part e /\ xfrees b = free_part e /\ run (Z.max 1 (xfirst b)) e /\
  0 <= xfirst b /\ 0 < xcount b /\ xfirst b + xcount b = Z.max 1 (xfirst b) + len e /\ xfirst b + xcount b < 2 ^ 32.
Lemma rep_intro b e : xitems b = used_part e -> xfrees b = free_part e -> run (Z.max 1 (xfirst b)) e ->
  0 <= xfirst b -> 0 < xcount b -> xfirst b + xcount b = Z.max 1 (xfirst b) + len e -> xfirst b + xcount b < 2 ^ 32 -> rep b e.
Proof. unfold rep; tauto. Qed.
Fixpoint reps (lo : Z) (bs : list xblock) (es : list (list ent)) : Prop :=
  match bs, es with
  | [], [] => True
  | b :: bs', e :: es' => lo <= xfirst b /\ rep b e /\ reps (xfirst b + xcount b) bs' es'
  | _, _ => False
  end.

Lemma u32_small z : 0 <= z < 2 ^ 32 -> u32 z = z.
Proof. intros; unfold u32; apply Z.mod_small; lia. Qed.
Lemma reps_lower lo lo' bs es : lo' <= lo -> reps lo bs es -> reps lo' bs es.
Proof. destruct bs, es; cbn; try tauto; intros ? (A & B & C); repeat split; try easy; try lia; apply B. Qed.
Lemma reps_lower_all lo bs es : reps lo bs es -> Forall (fun b => lo <= xfirst b) bs.
Proof.
  revert lo es; induction bs as [|b bs IH]; intros lo [|e es] H; cbn in H; try easy; constructor; [tauto|].
  destruct H as (A & (_ & _ & _ & _ & C & _) & D). specialize (IH _ _ D).
  eapply Forall_impl; [|exact IH]; cbn; intros; lia.
Qed.

(** Adding one number *)
Lemma insert_item_rep r o b e : rep b e -> 1 <= xfirst b -> 1 <= fst r < 2 ^ 32 - 1 -> ~ In (fst r) (map num e) ->
  match insert_item r o b with
  | Some b' => exists e', rep b' e' /\ Permutation e' ((r, o) :: e) /\
      ((fst r = xfirst b + xcount b /\ xfirst b' = xfirst b /\ xcount b' = xcount b + 1) \/
       (fst r = xfirst b - 1 /\ xfirst b' = xfirst b - 1 /\ xcount b' = xcount b + 1))
  | None => fst r < xfirst b - 1 \/ xfirst b + xcount b < fst r
  end.
Proof.
  intros (I & F & R & P & C & L & B) P1 N D. unfold insert_item.
  replace (Z.max 1 (xfirst b)) with (xfirst b) in * by lia.
  rewrite (u32_small (xfirst b + xcount b)) by lia. rewrite (u32_small (xfirst b - 1)) by lia.
  rewrite (u32_small (xcount b + 1)) by lia.
  destruct (Z.eqb_spec (fst r) (xfirst b + xcount b)) as [E | E].
  - exists (e ++ [(r, o)]). split; [apply rep_intro|split]; cbn [xfirst xcount xitems xfrees].
    + rewrite used_app, I; cbn; destruct o; cbn; [easy|apply app_nil_r || rewrite app_nil_r; easy].
    + rewrite free_app, F; cbn; destruct o; cbn; [rewrite app_nil_r; easy|easy].
    + replace (Z.max 1 (xfirst b)) with (xfirst b) by lia.
      apply run_app; split; [easy|]. cbn; split; [unfold num; cbn; lia|easy].
    + lia.
    + lia.
    + rewrite app_length, Nat2Z.inj_add; cbn; lia.
    + lia.
    + rewrite Permutation_app_comm; easy.
    + left; lia.
  - destruct (Z.eqb_spec (fst r) (xfirst b - 1)) as [E2 | E2].
    + exists ((r, o) :: e). split; [apply rep_intro|split]; cbn [xfirst xcount xitems xfrees].
      * rewrite I; cbn; destruct o; easy.
      * rewrite F; cbn; destruct o; easy.
      * replace (Z.max 1 (xfirst b - 1)) with (xfirst b - 1) by lia. cbn; split; [unfold num; cbn; lia|].
        replace (xfirst b - 1 + 1) with (xfirst b) by lia; easy.
      * lia.
      * lia.
      * cbn [length]; rewrite Nat2Z.inj_succ; lia.
      * lia.
      * easy.
      * right; lia.
    + destruct (Z.ltb_spec (xfirst b - 1) (fst r)), (Z.ltb_spec (fst r) (xfirst b + xcount b)); cbn [andb]; try lia.
      exfalso; apply D, (run_has (xfirst b)); [easy|lia].
Qed.

Lemma reps_notin lo bs es b e n : reps lo (b :: bs) (e :: es) -> 1 <= xfirst b -> ~ In n (map num (concat (e :: es))) ->
  ~ xfirst b <= n < xfirst b + xcount b.
Proof.
  intros (A & (I & F & R & P & C & L & B) & D) P1 N X. apply N. cbn [concat]. rewrite map_app, in_app_iff. left.
  replace (Z.max 1 (xfirst b)) with (xfirst b) in * by lia. apply (run_has (xfirst b)); [easy|lia].
Qed.
Lemma insert_blocks_reps r o bs : forall lo es, reps lo bs es -> 1 <= lo -> 1 <= fst r < 2 ^ 32 - 1 ->
  ~ In (fst r) (map num (concat es)) ->
  match insert_blocks r o bs with
  | Some bs' => exists es', reps (if fst r =? lo - 1 then lo - 1 else lo) bs' es' /\
                            Permutation (concat es') ((r, o) :: concat es)
  | None => Forall (fun b => fst r < xfirst b - 1 \/ xfirst b + xcount b < fst r) bs
  end.
Proof.
  induction bs as [|b bs IH]; intros lo [|e es] H L0 N D; cbn [reps] in H; try easy; cbn [insert_blocks]; [constructor|].
  pose proof (reps_notin lo bs es b e (fst r) H ltac:(lia) D) as NI.
  destruct H as (A & RB & RT). cbn [concat] in D. rewrite map_app, in_app_iff in D.
  pose proof (insert_item_rep r o b e RB ltac:(lia) N ltac:(tauto)) as HI.
  assert (RC : 0 < xcount b) by apply RB.
  destruct (insert_item r o b) as [b'|].
  - destruct HI as (e' & RB' & PE & HC).
    exists (e' :: es). split.
    + cbn [reps]. split; [|split; [exact RB'|]].
      * destruct HC as [HC | HC]; destruct (Z.eqb_spec (fst r) (lo - 1)); lia.
      * destruct HC as [(E & F & C) | (E & F & C)].
        -- rewrite F, C. destruct bs as [|b2 bs], es as [|e2 es]; cbn [reps] in *; try easy.
           assert (~ xfirst b2 <= fst r < xfirst b2 + xcount b2).
           { apply (reps_notin (xfirst b + xcount b) bs es b2 e2); [cbn; easy|lia|].
             intros X; apply D; right; exact X. }
           destruct RT as (RT1 & RT2 & RT3).
           destruct RT2 as (Q1 & Q2 & Q3 & Q4 & Q5 & Q6 & Q7).
           split; [|split; [apply rep_intro; easy|easy]]. lia.
        -- rewrite F, C. replace (xfirst b - 1 + (xcount b + 1)) with (xfirst b + xcount b) by lia. easy.
    + cbn [concat]. rewrite PE. easy.
  - specialize (IH (xfirst b + xcount b) es RT ltac:(lia) N ltac:(tauto)).
    destruct (insert_blocks r o bs) as [bs'|].
    + destruct IH as (es' & R' & PE). exists (e :: es'). split.
      * cbn [reps]. split; [destruct (Z.eqb_spec (fst r) (lo - 1)); lia|]. split; [easy|].
        destruct (Z.eqb_spec (fst r) (xfirst b + xcount b - 1)); [lia|easy].
      * cbn [concat]. rewrite PE. rewrite Permutation_middle. easy.
    + constructor; easy.
Qed.

Lemma new_block_rep r o : 1 <= fst r < 2 ^ 32 - 1 -> rep (new_block r o) [(r, o)].
Proof.
  intros N; unfold new_block; apply rep_intro; cbn [xfirst xcount xitems xfrees length]; try lia.
  - destruct o; easy.
  - destruct o; easy.
  - cbn; split; [unfold num; cbn; lia|easy].
Qed.
Lemma sort_ins_reps r o bs : forall lo es, reps lo bs es -> 1 <= lo <= fst r -> 1 <= fst r < 2 ^ 32 - 1 ->
  Forall (fun b => fst r < xfirst b - 1 \/ xfirst b + xcount b < fst r) bs ->
  exists es', reps lo (sort_ins block_lt (new_block r o) bs) es' /\ Permutation (concat es') ((r, o) :: concat es).
Proof.
  induction bs as [|b bs IH]; intros lo [|e es] H L N F; cbn [reps] in H; try easy; cbn [sort_ins].
  - exists [[(r, o)]]; split; [|easy]. cbn [reps]. split; [cbn; lia|split; [apply new_block_rep; easy|easy]].
  - inversion F as [|? ? F1 F2]; subst. destruct H as (A & RB & RT).
    assert (RC : 0 < xcount b) by apply RB.
    unfold block_lt at 1. cbn [new_block xfirst]. destruct (Z.ltb_spec (fst r) (xfirst b)) as [X | X].
    + exists ([(r, o)] :: e :: es). split; [|easy].
      cbn [reps]. split; [cbn; lia|]. split; [apply new_block_rep; easy|]. cbn [new_block xfirst xcount].
      split; [lia|easy].
    + destruct (IH (xfirst b + xcount b) es RT ltac:(lia) N F2) as (es' & R' & PE).
      exists (e :: es'). split; [cbn [reps]; easy|]. cbn [concat]. rewrite PE, Permutation_middle. easy.
Qed.
Lemma sort_ins_last {A} (lt : A -> A -> bool) x l : Forall (fun y => lt x y = false) l -> sort_ins lt x l = l ++ [x].
Proof. induction l as [|y l IH]; intros F; [easy|]. inversion F; subst; cbn. rewrite H1, IH; easy. Qed.
Lemma sort_sorted_gen bs : forall lo es acc, reps lo bs es -> Forall (fun b => xfirst b < lo) acc ->
  fold_left (fun acc x => sort_ins block_lt x acc) bs acc = acc ++ bs.
Proof.
  induction bs as [|b bs IH]; intros lo [|e es] acc H F; cbn [reps] in H; try easy; cbn [fold_left].
  - rewrite app_nil_r; easy.
  - destruct H as (A & RB & RT). assert (RC : 0 < xcount b) by apply RB.
    rewrite sort_ins_last.
    + rewrite (IH (xfirst b + xcount b) es).
      * rewrite <- app_assoc; easy.
      * easy.
      * apply Forall_app; split; [|repeat constructor; lia]. eapply Forall_impl; [|exact F]; cbn; intros; lia.
    + eapply Forall_impl; [|exact F]. cbn; intros c Hc. unfold block_lt. apply Z.ltb_ge; lia.
Qed.
Lemma sort_new_reps r o lo bs es : reps lo bs es -> 1 <= lo <= fst r -> 1 <= fst r < 2 ^ 32 - 1 ->
  Forall (fun b => fst r < xfirst b - 1 \/ xfirst b + xcount b < fst r) bs ->
  exists es', reps lo (sort_by block_lt (bs ++ [new_block r o])) es' /\ Permutation (concat es') ((r, o) :: concat es).
Proof.
  intros H L N F. unfold sort_by. rewrite fold_left_app. rewrite (sort_sorted_gen bs lo es []); [|easy|easy].
  cbn [app fold_left]. apply sort_ins_reps; easy.
Qed.

(** What of the additions is listed *)
Definition entries_of_adds (adds : list (ref * xadd)) : list ent :=
  flat_map (fun x => match snd x with
                     | XInUse None => [] | XInUse (Some off) => [(fst x, Some off)] | XFreed => [(fst x, None)] end) adds.
Lemma in_entries adds r o : In (r, o) (entries_of_adds adds) <->
  match o with Some off => In (r, XInUse (Some off)) adds | None => In (r, XFreed) adds end.
Proof.
  unfold entries_of_adds. rewrite in_flat_map. split.
  - intros ([r' a] & I & J). destruct a as [[off|]|]; cbn in J; try easy.
    + destruct J as [J | []]. injection J as -> <-. easy.
    + destruct J as [J | []]. injection J as -> <-. easy.
  - intros I; destruct o as [off|]; (eexists; split; [exact I|]); cbn; left; easy.
Qed.
Lemma entries_nums adds n : In n (map num (entries_of_adds adds)) -> In n (map (fun x => fst (fst x)) adds).
Proof.
  rewrite !in_map_iff. intros ([r o] & E & I). apply in_entries in I. destruct o; (eexists; split; [|exact I]); exact E.
Qed.
Lemma entries_app a b : entries_of_adds (a ++ b) = entries_of_adds a ++ entries_of_adds b.
Proof. apply flat_map_app. Qed.

Lemma add_objects_reps adds : addable adds ->
  exists es, reps 1 (snd (add_objects adds)) es /\ Permutation (concat es) (entries_of_adds adds).
Proof.
  induction adds as [|[r a] adds IH] using rev_ind; intros [ND R].
  - exists []; easy.
  - rewrite map_app in ND. cbn [map] in ND.
    apply Forall_app in R. destruct R as [R1 R2]. apply Forall_inv in R2. cbn [fst] in R2.
    assert (NI : ~ In (fst r) (map (fun x : ref * xadd => fst (fst x)) adds)).
    { apply NoDup_remove_2 in ND. rewrite app_nil_r in ND. exact ND. }
    assert (ND' : NoDup (map (fun x : ref * xadd => fst (fst x)) adds)).
    { apply NoDup_remove_1 in ND. rewrite app_nil_r in ND. exact ND. }
    destruct (IH (conj ND' R1)) as (es & RE & PE).
    assert (Q : forall o, exists es', reps 1 (match insert_blocks r o (snd (add_objects adds)) with
        | Some bs => bs | None => sort_by block_lt (snd (add_objects adds) ++ [new_block r o]) end) es' /\
        Permutation (concat es') ((r, o) :: concat es)).
    { intros o.
      assert (NC : ~ In (fst r) (map num (concat es))).
      { intros X. apply NI, entries_nums. eapply Permutation_in; [|exact X]. apply Permutation_map; easy. }
      pose proof (insert_blocks_reps r o (snd (add_objects adds)) 1 es RE ltac:(lia) R2 NC) as H.
      destruct (insert_blocks r o (snd (add_objects adds))) as [bs|].
      - destruct H as (es' & H & PH). exists es'. destruct (Z.eqb_spec (fst r) (1 - 1)); [lia|easy].
      - apply sort_new_reps; easy || lia. }
    unfold add_objects. rewrite fold_left_app. fold (add_objects adds). cbn [fold_left].
    rewrite entries_app. destruct a as [[off|]|]; cbn [add_object snd entries_of_adds flat_map fst app].
    + destruct (Q (Some off)) as (es' & Q1 & Q2). exists es'; split; [exact Q1|].
      rewrite Q2, PE. apply Permutation_cons_append.
    + exists es. rewrite app_nil_r. easy.
    + destruct (Q None) as (es' & Q1 & Q2). exists es'; split; [exact Q1|].
      rewrite Q2, PE. apply Permutation_cons_append.
Qed.

(** Merging *)
Lemma merge_from_reps l : forall cur lo e es, reps lo (cur :: l) (e :: es) ->
  exists es', reps lo (merge_from cur l) es' /\ concat es' = concat (e :: es).
Proof.
  induction l as [|n l IH]; intros cur lo e es H; cbn [merge_from].
  - exists (e :: es); easy.
  - destruct es as [|f es]; [cbn in H; tauto|].
    cbn [reps] in H. destruct H as (A & (I1 & F1 & R1 & P1 & C1 & L1 & B1) & A2 & (I2 & F2 & R2 & P2 & C2 & L2 & B2) & T).
    rewrite (u32_small (xfirst cur + xcount cur)) by lia.
    destruct (Z.eqb_spec (xfirst n) (xfirst cur + xcount cur)) as [E | E].
    + replace (Z.max 1 (xfirst n)) with (xfirst n) in * by lia.
      destruct (IH (merge2 cur n) lo (e ++ f) es) as (es' & R' & PE).
      * unfold merge2. rewrite (u32_small (xcount cur + xcount n)) by lia.
        cbn [reps xfirst xcount]. split; [easy|]. split.
        -- apply rep_intro; cbn [xfirst xcount xitems xfrees]; try lia.
           ++ rewrite used_app, I1, I2; easy.
           ++ rewrite free_app, F1, F2; easy.
           ++ apply run_app; split; [easy|]. rewrite <- L1, <- E; easy.
           ++ rewrite app_length, Nat2Z.inj_add; lia.
        -- replace (xfirst cur + (xcount cur + xcount n)) with (xfirst n + xcount n) by lia; easy.
      * exists es'; split; [easy|]. rewrite PE; cbn [concat]. rewrite <- app_assoc; easy.
    + destruct (IH n (xfirst cur + xcount cur) f es) as (es' & R' & PE).
      * cbn [reps]. split; [easy|]. split; [apply rep_intro; easy|easy].
      * exists (e :: es'); split; [cbn [reps]; split; [easy|]; split; [apply rep_intro; easy|easy]|]. cbn [concat] in *; rewrite PE; easy.
Qed.

(** Writing *)
Definition head_free (l : list ent) : Z := match free_part l with [] => 0 | r :: _ => fst r end.
(** Entries with the links, [later] being what follows *)
Fixpoint linked (e later : list ent) : list (Z * xent) :=
  match e with
  | [] => []
  | (r, o) :: t =>
    (fst r, match o with Some off => XUsed off (snd r) | None => XFree (head_free (t ++ later)) (snd r) end) :: linked t later
  end.
Lemma reps_frees bs : forall lo es, reps lo bs es -> flat_map xfrees bs = free_part (concat es).
Proof.
  induction bs as [|b bs IH]; intros lo [|e es] H; cbn [reps] in H; try easy.
  destruct H as (_ & (_ & F & _) & T). cbn [flat_map concat]. rewrite free_app, F, (IH _ _ T). easy.
Qed.
Lemma next_free_head t bs lo es : reps lo bs es -> next_free_num (free_part t) bs = head_free (t ++ concat es).
Proof. intros H. unfold next_free_num, head_free. rewrite (reps_frees bs lo es H), free_app. easy. Qed.
Lemma frees_below_none r fs later : Forall (fun f => ref_lt f r = false) fs -> frees_below r fs later = ([], fs).
Proof. destruct fs as [|f fs]; intros F; [easy|]. cbn. apply Forall_inv in F. rewrite F. easy. Qed.
Lemma block_entries_free items f fs later : (match items with [] => True | (r, _) :: _ => ref_lt f r = true end) ->
  block_entries items (f :: fs) later = (fst f, XFree (next_free_num fs later) (snd f)) :: block_entries items fs later.
Proof.
  destruct items as [|[r off] t]; intros H; cbn; [easy|]. rewrite H.
  destruct (frees_below r fs later); easy.
Qed.
Lemma ref_lt_num a b : fst a < fst b -> ref_lt a b = true.
Proof. intros; unfold ref_lt. destruct (Z.eqb_spec (fst a) (fst b)); [lia|]. apply Z.ltb_lt; easy. Qed.
Lemma ref_lt_num_not a b : fst b < fst a -> ref_lt a b = false.
Proof. intros; unfold ref_lt. destruct (Z.eqb_spec (fst a) (fst b)); [lia|]. apply Z.ltb_ge; lia. Qed.
Lemma used_run a e x : run a e -> In x (used_part e) -> a <= fst (fst x).
Proof.
  intros R I. unfold used_part in I. apply in_flat_map in I. destruct I as ([r o] & I & J).
  pose proof (run_in a e _ R I) as K. unfold num in K; cbn in *. destruct o; [|easy]. destruct J as [<- | []]; cbn; lia.
Qed.
Lemma free_run a e x : run a e -> In x (free_part e) -> a <= fst x.
Proof.
  intros R I. unfold free_part in I. apply in_flat_map in I. destruct I as ([r o] & I & J).
  pose proof (run_in a e _ R I) as K. unfold num in K; cbn in *. destruct o; [easy|]. destruct J as [<- | []]; cbn; lia.
Qed.
Lemma block_entries_linked bs lo es e : forall a, run a e -> reps lo bs es ->
  block_entries (used_part e) (free_part e) bs = linked e (concat es).
Proof.
  induction e as [|[r o] e IH]; intros a R H; [easy|].
  cbn [run] in R. destruct R as [N R]. unfold num in N; cbn [fst] in N.
  destruct o as [off|]; cbn [used_part free_part flat_map snd fst app linked].
  - fold (used_part e) (free_part e). cbn [block_entries].
    rewrite frees_below_none.
    + cbn [app]. rewrite (IH (a + 1)) by easy. easy.
    + apply Forall_forall. intros f F. apply ref_lt_num_not. pose proof (free_run _ _ _ R F). lia.
  - fold (used_part e) (free_part e). rewrite block_entries_free.
    + rewrite (next_free_head e bs lo es H), (IH (a + 1)) by easy. easy.
    + destruct (used_part e) as [|[r' off'] t] eqn:U; [easy|]. apply ref_lt_num.
      pose proof (used_run (a + 1) e (r', off') R) as K. rewrite U in K. specialize (K (or_introl eq_refl)). cbn in K. lia.
Qed.
Lemma linked_len e later : length (linked e later) = length e.
Proof. induction e as [|[r o] e IH]; cbn; congruence. Qed.
Lemma section_of_rep b e bs lo es : rep b e -> reps lo bs es ->
  section_of b bs = (if xfirst b <=? 1 then 0 else xfirst b,
                     (if xfirst b <=? 1 then 1 else 0) + len e,
                     (if xfirst b <=? 1 then [(0, XFree (head_free (e ++ concat es)) 65535)] else []) ++ linked e (concat es)).
Proof.
  intros (I & F & R & P & C & L & B) H. unfold section_of. rewrite I, F.
  rewrite (block_entries_linked bs lo es e _ R H), (next_free_head e bs lo es H).
  destruct (Z.eqb_spec (xfirst b) 1) as [E | E].
  - rewrite E in *. cbn [Z.eqb Z.leb Z.compare Pos.compare Pos.compare_cont]. f_equal. f_equal. rewrite u32_small by lia. lia.
  - destruct (Z.leb_spec (xfirst b) 1).
    + assert (xfirst b = 0) as E0 by lia. rewrite E0 in *. cbn [Z.eqb]. f_equal. f_equal. lia.
    + destruct (Z.eqb_spec (xfirst b) 0); [lia|]. f_equal. f_equal. lia.
Qed.

(** The entry that a list of entries has for a number *)
Fixpoint occ (e later : list ent) (n : Z) (x : xent) : Prop :=
  match e with
  | [] => False
  | (r, o) :: t =>
    (fst r = n /\ x = match o with Some off => XUsed off (snd r) | None => XFree (head_free (t ++ later)) (snd r) end)
    \/ occ t later n x
  end.
Lemma occ_app e f later n x : occ (e ++ f) later n x <-> occ e (f ++ later) n x \/ occ f later n x.
Proof. induction e as [|[r o] e IH]; cbn [occ app]; [tauto|]. rewrite IH, <- app_assoc. tauto. Qed.
Lemma occ_in e later n x : occ e later n x -> In n (map num e).
Proof. induction e as [|[r o] e IH]; cbn; [easy|]. intros [[H _] | H]; [left; easy|right; auto]. Qed.
Lemma occ_nth e : forall later a n x, run a e -> a <= n ->
  (nth_error (map snd (linked e later)) (Z.to_nat (n - a)) = Some x <-> occ e later n x).
Proof.
  induction e as [|[r o] e IH]; intros later a n x R L; cbn [linked map occ].
  - destruct (Z.to_nat (n - a)); cbn; easy.
  - destruct R as [N R]; unfold num in N; cbn [fst] in N.
    destruct (Z.eq_dec n a) as [-> | D].
    + rewrite Z.sub_diag; cbn. split.
      * intros H; left; split; [easy|]. congruence.
      * intros [[_ ->] | H]; [easy|]. apply occ_in in H. apply in_map_iff in H. destruct H as (y & E & I).
        pose proof (run_in _ _ _ R I). lia.
    + replace (Z.to_nat (n - a)) with (S (Z.to_nat (n - (a + 1)))) by lia. cbn [nth_error].
      rewrite (IH later (a + 1) n x R ltac:(lia)). split; [tauto|]. intros [[H _] | H]; [lia|easy].
Qed.

Lemma sections_lists bs : forall lo es n x, reps lo bs es -> 1 <= n ->
  (lists (sections_of bs) n x <-> occ (concat es) [] n x).
Proof.
  induction bs as [|b bs IH]; intros lo [|e es] n x H L; cbn [reps] in H; try easy.
  - cbn. split; [|easy]. intros (f & c & l & I & _); easy.
  - destruct H as (A & RB & RT). cbn [sections_of concat]. rewrite occ_app, app_nil_r.
    pose proof (IH _ _ n x RT L) as IH'.
    rewrite (section_of_rep b e bs _ es RB RT).
    destruct RB as (_ & _ & R & P & C & LL & B).
    set (first := if xfirst b <=? 1 then 0 else xfirst b).
    set (zero := if xfirst b <=? 1 then [(0, XFree (head_free (e ++ concat es)) 65535)] else []).
    assert (NTH : Z.max 1 (xfirst b) <= n -> nth_error (map snd (zero ++ linked e (concat es))) (Z.to_nat (n - first))
                  = nth_error (map snd (linked e (concat es))) (Z.to_nat (n - Z.max 1 (xfirst b)))).
    { intros Ln. unfold zero, first. destruct (Z.leb_spec (xfirst b) 1).
      - replace (Z.max 1 (xfirst b)) with 1 by lia. replace (Z.to_nat (n - 0)) with (S (Z.to_nat (n - 1))) by lia. easy.
      - replace (Z.max 1 (xfirst b)) with (xfirst b) by lia. easy. }
    split.
    + intros (f & c & l & [I | I] & L1 & L2 & E).
      * injection I as <- <- <-. left. fold first in E.
        assert (Ln : Z.max 1 (xfirst b) <= n) by (unfold first in L1; destruct (Z.leb_spec (xfirst b) 1); lia).
        rewrite (NTH Ln) in E. apply (occ_nth e (concat es) _ n x R Ln). exact E.
      * right. apply IH'. exists f, c, l; easy.
    + intros [I | I].
      * assert (Ln : Z.max 1 (xfirst b) <= n < Z.max 1 (xfirst b) + len e).
        { pose proof (occ_in _ _ _ _ I) as J. apply in_map_iff in J. destruct J as (y & E & J).
          pose proof (run_in _ _ _ R J). lia. }
        exists first, ((if xfirst b <=? 1 then 1 else 0) + len e), (zero ++ linked e (concat es)).
        split; [left; easy|]. rewrite NTH by lia.
        split; [unfold first; destruct (Z.leb_spec (xfirst b) 1); lia|].
        split; [unfold first; destruct (Z.leb_spec (xfirst b) 1); lia|].
        apply (occ_nth e (concat es) _ n x R); [lia|easy].
      * apply IH' in I. destruct I as (f & c & l & I & J). exists f, c, l. split; [right; easy|easy].
Qed.
Fixpoint apart (lo : Z) (bs : list xblock) : Prop :=
  match bs with [] => True | b :: t => lo < xfirst b /\ apart (xfirst b + xcount b) t end.
Lemma merge_from_apart l : forall cur lo e es, reps lo (cur :: l) (e :: es) ->
  match merge_from cur l with
  | [] => False
  | b :: t => xfirst b = xfirst cur /\ apart (xfirst b + xcount b) t
  end.
Proof.
  induction l as [|n l IH]; intros cur lo e es H; cbn [merge_from].
  - cbn; easy.
  - destruct es as [|f es]; [cbn in H; tauto|].
    cbn [reps] in H. destruct H as (A & (I1 & F1 & R1 & P1 & C1 & L1 & B1) & A2 & (I2 & F2 & R2 & P2 & C2 & L2 & B2) & T).
    rewrite (u32_small (xfirst cur + xcount cur)) by lia.
    destruct (Z.eqb_spec (xfirst n) (xfirst cur + xcount cur)) as [E | E].
    + replace (Z.max 1 (xfirst n)) with (xfirst n) in * by lia.
      specialize (IH (merge2 cur n) lo (e ++ f) es).
      destruct (merge_from (merge2 cur n) l) as [|b t]; apply IH.
      all: unfold merge2; rewrite (u32_small (xcount cur + xcount n)) by lia.
      all: cbn [reps xfirst xcount]; (split; [easy|]); split.
      all: try (replace (xfirst cur + (xcount cur + xcount n)) with (xfirst n + xcount n) by lia; easy).
      all: apply rep_intro; cbn [xfirst xcount xitems xfrees]; try lia.
      all: try (rewrite used_app, I1, I2; easy).
      all: try (rewrite free_app, F1, F2; easy).
      all: try (rewrite app_length, Nat2Z.inj_add; lia).
      all: apply run_app; split; [easy|]; rewrite <- L1, <- E; easy.
    + assert (RN : reps (xfirst cur + xcount cur) (n :: l) (f :: es)).
      { cbn [reps]. split; [easy|]. split; [apply rep_intro; easy|easy]. }
      specialize (IH n (xfirst cur + xcount cur) f es RN). split; [easy|].
      destruct (merge_from n l) as [|b t]; [easy|]. cbn [apart]. destruct IH as [E2 IH]. split; [lia|easy].
Qed.
Lemma sections_wf_apart bs : forall lo es, reps lo bs es -> apart lo bs -> 1 <= lo -> well_formed lo (sections_of bs).
Proof.
  induction bs as [|b bs IH]; intros lo [|e es] H S0 L; cbn [reps] in H; try easy.
  destruct H as (A & RB & RT). cbn [sections_of]. rewrite (section_of_rep b e bs _ es RB RT). cbn [well_formed].
  destruct RB as (_ & _ & R & P & C & LL & B). destruct S0 as [S1 S2].
  rewrite app_length, linked_len, Nat2Z.inj_add.
  destruct (Z.leb_spec (xfirst b) 1) as [X | X]; [lia|]; cbn [length].
  assert (EX : Z.max 1 (xfirst b) = xfirst b) by lia. rewrite EX in *.
  split; [lia|]. split; [lia|]. split; [lia|].
  replace (xfirst b + (0 + len e)) with (xfirst b + xcount b) by lia. eapply IH; [exact RT|easy|lia].
Qed.
Lemma sections_wf b bs e es : reps 0 (b :: bs) (e :: es) -> apart (xfirst b + xcount b) bs ->
  well_formed 0 (sections_of (b :: bs)).
Proof.
  intros (A & RB & RT) S0. cbn [sections_of]. rewrite (section_of_rep b e bs _ es RB RT). cbn [well_formed].
  destruct RB as (_ & _ & R & P & C & LL & B).
  rewrite app_length, linked_len, Nat2Z.inj_add.
  destruct (Z.leb_spec (xfirst b) 1) as [X | X]; cbn [length].
  - assert (EX : Z.max 1 (xfirst b) = 1) by lia. rewrite EX in *.
    split; [lia|]. split; [lia|]. split; [lia|].
    replace (0 + (1 + len e)) with (xfirst b + xcount b) by lia.
    eapply sections_wf_apart; [exact RT|easy|lia].
  - assert (EX : Z.max 1 (xfirst b) = xfirst b) by lia. rewrite EX in *.
    split; [lia|]. split; [lia|]. split; [lia|].
    replace (xfirst b + (0 + len e)) with (xfirst b + xcount b) by lia. eapply sections_wf_apart; [exact RT|easy|lia].
Qed.
Lemma wf_not_below lo secs n x : well_formed lo secs -> n < lo -> ~ lists secs n x.
Proof.
  revert lo; induction secs as [|[[f c] l] secs IH]; intros lo W L (f' & c' & l' & I & L1 & L2 & E); [easy|].
  destruct W as (W1 & W2 & W3 & W4). destruct I as [I | I].
  - injection I as -> -> ->. lia.
  - apply (IH (f + c) W4 ltac:(lia)). exists f', c', l'. easy.
Qed.
Lemma sections_zero b bs e es x : reps 0 (b :: bs) (e :: es) -> apart (xfirst b + xcount b) bs ->
  (lists (sections_of (b :: bs)) 0 x <-> xfirst b <= 1 /\ x = XFree (head_free (concat (e :: es))) 65535).
Proof.
  intros H S0. pose proof (sections_wf b bs e es H S0) as W. destruct H as (A & RB & RT).
  cbn [sections_of] in *. rewrite (section_of_rep b e bs _ es RB RT) in *. cbn [well_formed] in W.
  destruct W as (W1 & W2 & W3 & W4). cbn [concat].
  split.
  - intros (f & c & l & [I | I] & L1 & L2 & E).
    + injection I as <- <- <-. destruct (Z.leb_spec (xfirst b) 1); [|lia].
      split; [easy|]. cbn in E. congruence.
    + exfalso. refine (wf_not_below _ _ 0 x W4 _ _); [|exists f, c, l; easy]. lia.
  - intros [L ->]. destruct (Z.leb_spec (xfirst b) 1); [|lia].
    eexists _, _, _. split; [left; reflexivity|]. split; [lia|]. split; [lia|]. easy.
Qed.

(** Ascending numbers and the links *)
Fixpoint asc (lo : Z) (e : list ent) : Prop := match e with [] => True | x :: t => lo <= num x /\ asc (num x + 1) t end.
Lemma asc_lower lo lo' e : lo' <= lo -> asc lo e -> asc lo' e.
Proof. destruct e; cbn; [easy|]. intros; split; [lia|easy]. Qed.
Lemma asc_in lo e x : asc lo e -> In x e -> lo <= num x.
Proof.
  revert lo; induction e as [|y e IH]; intros lo; cbn; [easy|]. intros [A B] [-> | I]; [easy|].
  specialize (IH _ B I). lia.
Qed.
Lemma run_asc_app e f : forall a, run a e -> asc (a + len e) f -> asc a (e ++ f).
Proof.
  induction e as [|x e IH]; intros a R F; cbn [app asc run length] in *.
  - rewrite Z.add_0_r in F; easy.
  - destruct R as [R1 R2]; split; [lia|]. rewrite R1. apply IH; [easy|].
    rewrite Nat2Z.inj_succ in F. replace (a + 1 + len e) with (a + Z.succ (len e)) by lia. easy.
Qed.
Lemma reps_asc bs : forall lo es, reps lo bs es -> asc (Z.max 1 lo) (concat es).
Proof.
  induction bs as [|b bs IH]; intros lo [|e es] H; cbn [reps] in H; try easy.
  destruct H as (A & (I & F & R & P & C & LL & B) & RT). cbn [concat].
  apply (asc_lower (Z.max 1 (xfirst b))); [lia|]. apply run_asc_app; [easy|]. rewrite <- LL.
  eapply asc_lower; [|apply IH; exact RT]. lia.
Qed.
(** [m] is the lowest free number of [e] from [lo] on *)
Definition link (e : list ent) (n m : Z) : Prop :=
  ((exists g, In ((m, g), None) e) /\ n < m /\ (forall k g, In ((k, g), None) e -> n < k -> m <= k)) \/
  (m = 0 /\ forall k g, In ((k, g), None) e -> ~ n < k).
Lemma link_fun e n m m' : link e n m -> link e n m' -> m = m'.
Proof.
  intros [((g & H1) & H2 & H3) | [H1 H2]] [((g' & K1) & K2 & K3) | [K1 K2]].
  - specialize (H3 _ _ K1 K2). specialize (K3 _ _ H1 H2). lia.
  - destruct (K2 _ _ H1 H2).
  - destruct (H2 _ _ K1 K2).
  - congruence.
Qed.
Lemma head_free_link t lo : asc lo t -> link t (lo - 1) (head_free t).
Proof.
  revert lo; induction t as [|[[k g] o] t IH]; intros lo A.
  - right; split; easy.
  - destruct A as [A1 A2]. unfold num in *; cbn [fst] in *. destruct o as [off|].
    + specialize (IH _ A2). change (head_free ((k, g, Some off) :: t)) with (head_free t).
      replace (k + 1 - 1) with k in IH by lia.
      destruct IH as [((g' & H1) & H2 & H3) | [H1 H2]].
      * left. split; [exists g'; right; easy|]. split; [lia|].
        intros q g2 [Q | Q] L; [easy|]. pose proof (asc_in _ _ _ A2 Q) as S0; unfold num in S0; cbn in S0.
        apply (H3 _ _ Q). lia.
      * right. split; [easy|]. intros q g2 [Q | Q] L; [easy|].
        pose proof (asc_in _ _ _ A2 Q) as S0; unfold num in S0; cbn in S0. apply (H2 _ _ Q). lia.
    + left. change (head_free ((k, g, None) :: t)) with k. split; [exists g; left; easy|]. split; [lia|].
      intros q g2 [Q | Q] L; [injection Q as -> ->; lia|].
      pose proof (asc_in _ _ _ A2 Q) as S0; unfold num in S0; cbn in S0. lia.
Qed.
Lemma link_cons x t n m : num x <= n -> (link (x :: t) n m <-> link t n m \/ (0 < 0)).
Proof.
  intros L. unfold link. split.
  - intros [((g & H1) & H2 & H3) | [H1 H2]]; left.
    + left. split; [|split; [easy|]].
      * destruct H1 as [-> | H1]; [unfold num in L; cbn in L; lia|exists g; easy].
      * intros; eapply H3; [right; eassumption|easy].
    + right; split; [easy|]. intros; eapply H2; right; eassumption.
  - intros [[((g & H1) & H2 & H3) | [H1 H2]] | H]; [| |lia].
    + left. split; [exists g; right; easy|]. split; [easy|].
      intros k g2 [-> | I] Lk; [unfold num in L; cbn in L; lia|eapply H3; eassumption].
    + right. split; [easy|]. intros k g2 [-> | I] Lk; [unfold num in L; cbn in L; lia|eapply H2; eassumption].
Qed.
Definition due_in (e : list ent) (n : Z) (x : xent) : Prop :=
  match x with
  | XUsed off g => In ((n, g), Some off) e
  | XFree m g => In ((n, g), None) e /\ link e n m
  end.
Lemma occ_due e : forall lo n x, asc lo e -> (occ e [] n x <-> due_in e n x).
Proof.
  induction e as [|[[k g] o] e IH]; intros lo n x A.
  - cbn. destruct x; cbn; tauto.
  - destruct A as [A1 A2]. unfold num in *; cbn [fst] in *. cbn [occ fst snd]. rewrite app_nil_r.
    pose proof (head_free_link e (k + 1) A2) as HL. replace (k + 1 - 1) with k in HL by lia.
    assert (LC : forall m, link ((k, g, o) :: e) k m <-> link e k m).
    { intros m. rewrite link_cons by (unfold num; cbn; lia). intuition lia. }
    assert (NI : forall g' o', ~ In (k, g', o') e).
    { intros g' o' I. pose proof (asc_in _ _ _ A2 I) as S0. unfold num in S0; cbn in S0. lia. }
    rewrite (IH (k + 1) n x A2). split.
    + intros [[E ->] | H].
      * subst n. destruct o as [off|]; cbn [due_in].
        -- left; easy.
        -- split; [left; easy|]. apply LC, HL.
      * destruct x as [m g'|off g']; cbn [due_in] in *.
        -- destruct H as [H1 H2]. pose proof (asc_in _ _ _ A2 H1) as S0; unfold num in S0; cbn in S0.
           split; [right; easy|]. apply link_cons; [unfold num; cbn; lia|left; easy].
        -- right; easy.
    + destruct x as [m g'|off g']; cbn [due_in].
      * intros [[E | I] H].
        -- injection E as -> -> ->. left. split; [easy|]. f_equal. apply LC in H. eapply link_fun; eassumption.
        -- right. split; [easy|]. pose proof (asc_in _ _ _ A2 I) as S0; unfold num in S0; cbn in S0.
           apply link_cons in H; [|unfold num; cbn; lia]. destruct H; [easy|lia].
      * intros [E | I]; [injection E as -> -> ->; left; easy|right; easy].
Qed.
Lemma due_perm e adds n x : Permutation e (entries_of_adds adds) -> (due_in e n x <-> due adds n x).
Proof.
  intros P.
  assert (IF : forall r o, In (r, o) e <-> match o with Some off => In (r, XInUse (Some off)) adds | None => In (r, XFreed) adds end).
  { intros r o. rewrite <- in_entries. split; intros I; eapply Permutation_in; try exact I; [easy|symmetry; easy]. }
  assert (LK : forall m, link e n m <-> next_link adds n m).
  { intros m. unfold link, next_link, added_free. split.
    - intros [((g & H1) & H2 & H3) | [H1 H2]].
      + left. split; [exists g; apply (IF _ None); easy|]. split; [easy|]. intros k g' K. apply (H3 k g'). apply (IF _ None); easy.
      + right. split; [easy|]. intros k g' K. apply (H2 k g'), (IF _ None); easy.
    - intros [((g & H1) & H2 & H3) | [H1 H2]].
      + left. split; [exists g; apply (IF _ None); easy|]. split; [easy|]. intros k g' K. apply (H3 k g'). apply (IF _ None); easy.
      + right. split; [easy|]. intros k g' K. apply (H2 k g'), (IF _ None); easy. }
  destruct x as [m g|off g]; cbn [due_in due].
  - unfold added_free. rewrite (IF _ None), LK. easy.
  - unfold added_used. rewrite (IF _ (Some off)). easy.
Qed.

(** The highest number *)
Definition top (adds : list (ref * xadd)) (m : Z) : Z := fold_left (fun m (x : ref * xadd) => Z.max m (fst (fst x))) adds m.
Lemma add_objects_max adds : fst (add_objects adds) = top adds 0.
Proof.
  unfold add_objects, top. generalize (@nil xblock). generalize 0.
  induction adds as [|[r a] adds IH]; intros m bs; [easy|]. cbn [fold_left].
  assert (E : fst (add_object (m, bs) (r, a)) = Z.max m (fst r)).
  { unfold add_object; cbn [fst]. destruct (Z.ltb_spec m (fst r)); destruct a as [[?|]|]; cbn; lia. }
  destruct (add_object (m, bs) (r, a)) as [m' bs']. cbn [fst] in *. subst m'. apply IH.
Qed.
Lemma max_spec adds : forall m, m <= top adds m /\
  Forall (fun x : ref * xadd => fst (fst x) <= top adds m) adds /\
  (top adds m = m \/
   In (top adds m) (map (fun x => fst (fst x)) adds)).
Proof.
  induction adds as [|x adds IH]; intros m; unfold top in *; cbn [fold_left map].
  - split; [lia|split; [constructor|left; easy]].
  - fold (top adds (Z.max m (fst (fst x)))). destruct (IH (Z.max m (fst (fst x)))) as (H1 & H2 & H3). fold (top adds (Z.max m (fst (fst x)))) in *. split; [lia|]. split.
    + constructor; [cbv beta; lia|easy].
    + destruct H3 as [H3 | H3]; [|right; right; easy]. rewrite H3. destruct (Z.max_spec m (fst (fst x))) as [[_ ->] | [_ ->]].
      * right; left; easy.
      * left; easy.
Qed.

(** The numbers kept beside the entries *)
Definition numbered (secs : list section) : Prop :=
  Forall (fun s : section => forall i x, nth_error (snd s) i = Some x -> fst x = fst (fst s) + Z.of_nat i) secs.
Lemma linked_numbered e : forall a later i x, run a e -> nth_error (linked e later) i = Some x -> fst x = a + Z.of_nat i.
Proof.
  induction e as [|[r o] e IH]; intros a later i x R N; cbn [linked] in N; [destruct i; easy|].
  destruct R as [R1 R2]. destruct i as [|i]; cbn [nth_error] in N.
  - injection N as <-. cbn. unfold num in R1. cbn in R1. lia.
  - rewrite (IH (a + 1) later i x R2 N). lia.
Qed.
Lemma sections_numbered bs : forall lo es, reps lo bs es -> numbered (sections_of bs).
Proof.
  induction bs as [|b bs IH]; intros lo [|e es] H; cbn [reps] in H; try easy; [constructor|].
  destruct H as (A & RB & RT). cbn [sections_of]. constructor; [|eapply IH; exact RT].
  rewrite (section_of_rep b e bs _ es RB RT). cbn [fst snd]. destruct RB as (_ & _ & R & P & C & LL & B).
  intros i x N. destruct (Z.leb_spec (xfirst b) 1) as [X | X].
  - assert (EX : Z.max 1 (xfirst b) = 1) by lia. rewrite EX in *. destruct i as [|i]; cbn [app nth_error] in N.
    + injection N as <-. easy.
    + apply (linked_numbered e 1) in N; [lia|easy].
  - assert (EX : Z.max 1 (xfirst b) = xfirst b) by lia. rewrite EX in *. apply (linked_numbered e (xfirst b)) in N; [lia|easy].
Qed.

Lemma sections_of_adds_full adds (inc : bool) : addable adds -> (inc = true \/ something adds) ->
  exists secs, xref_sections (if inc then first_empty (add_objects adds) else add_objects adds) = Ok secs /\
    numbered secs /\ well_formed 0 secs /\
    (forall n x, 1 <= n -> (lists secs n x <-> due adds n x)) /\
    (forall x, lists secs 0 x <->
       (inc = true \/ exists y, due adds 1 y) /\ exists m, next_link adds 0 m /\ x = XFree m 65535).
Proof.
  intros AD SO. destruct (add_objects_reps adds AD) as (es & RE & PE).
  set (st := if inc then first_empty (add_objects adds) else add_objects adds).
  assert (exists b bs e es', snd st = b :: bs /\ reps 0 (b :: bs) (e :: es') /\
          Permutation (concat (e :: es')) (entries_of_adds adds) /\
          (xfirst b <= 1 <-> (inc = true \/ In 1 (map num (concat (e :: es')))))) as (b & bs & e & es' & ES & RS & PS & Z1).
  { unfold st. destruct inc.
    - exists (mk_xb 0 1 [] []), (snd (add_objects adds)), [], es. split; [easy|]. split; [|split; [exact PE|cbn; intuition lia]].
      cbn [reps xfirst xcount]. split; [lia|]. split; [apply rep_intro; cbn; easy || lia|]. exact RE.
    - destruct SO as [SO | SO]; [easy|].
      destruct (snd (add_objects adds)) as [|b bs] eqn:EB; destruct es as [|e es']; cbn [reps] in RE; try easy.
      + exfalso. cbn in PE. apply Permutation_nil in PE. destruct SO as (n & g & SO).
        assert (exists o, In ((n, g), o) (entries_of_adds adds)) as (o & K).
        { destruct SO as [(off & SO) | SO]; [exists (Some off)|exists None]; apply in_entries; exact SO. }
        rewrite PE in K. easy.
      + exists b, bs, e, es'. split; [easy|]. split; [eapply reps_lower; [|exact RE]; lia|]. split; [easy|].
        pose proof RE as (A & (I & F & R & P & C & LL & B) & RT).
        assert (EX : Z.max 1 (xfirst b) = xfirst b) by lia. rewrite EX in *.
        split.
        * intros. right. cbn [concat]. rewrite map_app, in_app_iff. left. apply (run_has (xfirst b)); [easy|lia].
        * intros [? | I1]; [easy|]. cbn [concat] in I1. rewrite map_app, in_app_iff, !in_map_iff in I1.
          destruct I1 as [(y & E1 & I1) | (y & E1 & I1)].
          -- pose proof (run_in _ _ _ R I1). lia.
          -- pose proof (asc_in _ _ _ (reps_asc _ _ _ RT) I1). lia. }
  assert (HM : exists c t f fs, merge_from b bs = c :: t /\ reps 0 (c :: t) (f :: fs) /\ apart (xfirst c + xcount c) t /\
             xfirst c = xfirst b /\ concat (f :: fs) = concat (e :: es')).
  { destruct (merge_from_reps bs b 0 e es' RS) as (fs & RF & EF).
    pose proof (merge_from_apart bs b 0 e es' RS) as AP.
    destruct (merge_from b bs) as [|c t]; [easy|]. destruct fs as [|f fs]; [cbn in RF; easy|].
    exists c, t, f, fs. easy. }
  destruct HM as (c & t & f & fs & EM & RF & AP & FC & EF).
  exists (sections_of (c :: t)). split; [|split; [|split; [|split]]].
  - unfold xref_sections. rewrite ES. cbn [merge_blocks bind]. rewrite EM. easy.
  - eapply sections_numbered. exact RF.
  - apply (sections_wf c t f fs); easy.
  - intros n x L. rewrite (sections_lists _ _ _ n x RF L). rewrite (occ_due _ _ n x (reps_asc _ _ _ RF)).
    apply due_perm. rewrite EF. easy.
  - intros x. rewrite (sections_zero c t f fs x RF AP). rewrite FC, Z1, EF.
    assert (AS : asc 1 (concat (e :: es'))).
    { rewrite <- EF. apply (reps_asc _ _ _ RF). }
    assert (D1 : In 1 (map num (concat (e :: es'))) <-> exists y, due adds 1 y).
    { rewrite in_map_iff. split.
      - intros ([[k g] o] & E1 & I). unfold num in E1; cbn in E1. subst k. destruct o as [off|].
        + exists (XUsed off g). rewrite <- (due_perm _ _ 1 _ PS). easy.
        + destruct (occ_due (concat (e :: es')) 1 1 (XFree (head_free (concat (e :: es'))) g) AS) as [_ _].
          assert (exists m, occ (concat (e :: es')) [] 1 (XFree m g)) as (m & O).
          { clear - I. induction (concat (e :: es')) as [|[r' o'] l IH]; [easy|]. destruct I as [E | I].
            - injection E as -> ->. eexists. left. split; [easy|]. reflexivity.
            - destruct (IH I) as (m & O). exists m. right; easy. }
          exists (XFree m g). rewrite <- (due_perm _ _ 1 _ PS). rewrite <- (occ_due _ 1 1 _ AS). easy.
      - intros (y & D). rewrite <- (due_perm _ _ 1 _ PS) in D. destruct y as [m g|off g]; cbn in D.
        + exists ((1, g), None). easy.
        + exists ((1, g), Some off). easy. }
    rewrite D1.
    pose proof (head_free_link _ 1 AS) as HL. cbn [Z.sub Z.add Z.opp Z.pos_sub] in HL.
    assert (LK : forall m, link (concat (e :: es')) 0 m <-> next_link adds 0 m).
    { assert (IF : forall r, In (r, None) (concat (e :: es')) <-> In (r, XFreed) adds).
      { intros r. rewrite <- (in_entries adds r None). split; intros I; eapply Permutation_in; try exact I; [easy|symmetry; easy]. }
      intros m. unfold link, next_link, added_free. split.
      - intros [((g & H1) & H2 & H3) | [H1 H2]].
        + left. split; [exists g; apply IF; easy|]. split; [easy|]. intros k g' K. apply (H3 k g'). apply IF; easy.
        + right. split; [easy|]. intros k g' K. apply (H2 k g'), IF; easy.
      - intros [((g & H1) & H2 & H3) | [H1 H2]].
        + left. split; [exists g; apply IF; easy|]. split; [easy|]. intros k g' K. apply (H3 k g'). apply IF; easy.
        + right. split; [easy|]. intros k g' K. apply (H2 k g'), IF; easy. }
    split.
    + intros [H1 H2]. split; [easy|]. exists (head_free (concat (e :: es'))). split; [apply LK; exact HL|easy].
    + intros [H1 (m & H2 & ->)]. split; [easy|]. f_equal. apply LK in H2. eapply link_fun; eassumption.
Qed.
Lemma sections_of_adds adds (inc : bool) : addable adds -> (inc = true \/ something adds) ->
  exists secs, xref_sections (if inc then first_empty (add_objects adds) else add_objects adds) = Ok secs /\
    well_formed 0 secs /\
    (forall n x, 1 <= n -> (lists secs n x <-> due adds n x)) /\
    (forall x, lists secs 0 x <->
       (inc = true \/ exists y, due adds 1 y) /\ exists m, next_link adds 0 m /\ x = XFree m 65535).
Proof.
  intros A B. destruct (sections_of_adds_full adds inc A B) as (secs & H1 & H2 & H3). exists secs. easy.
Qed.
Lemma size_of_adds adds : addable adds ->
  (forall n, In n (map (fun x => fst (fst x)) adds) -> n < xref_size (add_objects adds)) /\
  (xref_size (add_objects adds) = 1 \/ In (xref_size (add_objects adds) - 1) (map (fun x => fst (fst x)) adds)) /\
  xref_size (first_empty (add_objects adds)) = xref_size (add_objects adds).
Proof.
  intros [ND R]. unfold xref_size. rewrite add_objects_max.
  destruct (max_spec adds 0) as (H1 & H2 & H3).
  set (m := top adds 0) in *.
  assert (B : m < 2 ^ 32 - 1).
  { destruct H3 as [-> | H3]; [lia|]. apply in_map_iff in H3. destruct H3 as (x & E & I).
    rewrite Forall_forall in R. specialize (R _ I). cbn in R. lia. }
  rewrite (u32_small (m + 1)) by lia. split; [|split].
  - intros n I. apply in_map_iff in I. destruct I as (x & E & I). rewrite Forall_forall in H2. specialize (H2 _ I). cbn in H2. unfold ref in *. lia.
  - replace (m + 1 - 1) with m by lia. destruct H3 as [-> | H3]; [left; easy|right; easy].
  - unfold first_empty; cbn [fst]. rewrite add_objects_max. fold m. apply u32_small; lia.
Qed.

(** The free list *)
Lemma free_nums_in e n : In n (map fst (free_part e)) <-> exists g, In ((n, g), None) e.
Proof.
  unfold free_part. rewrite in_map_iff. split.
  - intros ([k g] & E & I). cbn in E; subst k. apply in_flat_map in I. destruct I as ([r o] & I & J). destruct o; [easy|].
    destruct J as [J | []]. cbn in J. subst r. exists g; easy.
  - intros (g & I). exists (n, g). split; [easy|]. apply in_flat_map. eexists; split; [exact I|]. cbn; auto.
Qed.
Lemma free_nums_ascend e : forall lo, asc lo e -> ascends (map fst (free_part e)).
Proof.
  induction e as [|[[k g] o] e IH]; intros lo A; [easy|]. destruct A as [A1 A2]. unfold num in *; cbn [fst] in *.
  destruct o as [off|].
  - apply (IH _ A2).
  - cbn. split; [|apply (IH _ A2)]. intros y I. apply free_nums_in in I. destruct I as (g' & I).
    pose proof (asc_in _ _ _ A2 I) as S0. unfold num in S0; cbn in S0. lia.
Qed.
Lemma asc_entries adds : addable adds -> exists e, asc 1 e /\ Permutation e (entries_of_adds adds).
Proof.
  intros AD. destruct (add_objects_reps adds AD) as (es & RE & PE). exists (concat es). split; [|easy].
  apply (reps_asc _ _ _ RE).
Qed.
Lemma chain_of_entries secs e : asc 1 e -> (forall n x, 1 <= n -> lists secs n x <-> occ e [] n x) ->
  forall t pre n g, e = pre ++ t -> lists secs n (XFree (head_free t) g) -> free_chain secs n (map fst (free_part t)).
Proof.
  intros A H. induction t as [|[[k gk] o] t IH]; intros pre n g E L.
  - cbn. apply chain_end with (g := g). exact L.
  - destruct o as [off|].
    + apply (IH (pre ++ [(k, gk, Some off)]) n g); [rewrite <- app_assoc; exact E|exact L].
    + change (head_free ((k, gk, None) :: t)) with k in L. cbn [free_part flat_map snd app map fst].
      assert (1 <= k).
      { assert (I : In (k, gk, None) e) by (rewrite E, in_app_iff; right; left; easy).
        pose proof (asc_in _ _ _ A I) as S0. unfold num in S0; cbn in S0. lia. }
      apply chain_step with (g := g); [exact L|lia|]. fold (free_part t).
      apply (IH (pre ++ [(k, gk, None)]) k gk); [rewrite <- app_assoc; exact E|].
      apply H; [lia|]. rewrite E, occ_app. right. left. rewrite app_nil_r. easy.
Qed.
Lemma free_chain_adds adds secs : addable adds ->
  (forall n x, 1 <= n -> lists secs n x <-> due adds n x) ->
  (forall x, lists secs 0 x -> exists m, next_link adds 0 m /\ x = XFree m 65535) ->
  (exists x, lists secs 0 x) ->
  exists l, free_chain secs 0 l /\ ascends l /\ (forall n, In n l <-> exists g, added_free adds n g).
Proof.
  intros AD HN HZ [x HX]. destruct (asc_entries adds AD) as (e & A & P).
  exists (map fst (free_part e)). split; [|split].
  - destruct (HZ x HX) as (m & L & ->).
    assert (m = head_free e) as ->.
    { pose proof (head_free_link e 1 A) as HL. cbn [Z.sub Z.add Z.opp Z.pos_sub] in HL.
      assert (LK : link e 0 m).
      { assert (IF : forall r, In (r, None) e <-> In (r, XFreed) adds).
        { intros r. rewrite <- (in_entries adds r None). split; intros I; eapply Permutation_in; try exact I; [easy|symmetry; easy]. }
        unfold link. destruct L as [((g & H1) & H2 & H3) | [H1 H2]].
        + left. split; [exists g; apply IF; easy|]. split; [easy|]. intros k g' K. apply (H3 k g'). apply IF; easy.
        + right. split; [easy|]. intros k g' K. apply (H2 k g'), IF; easy. }
      eapply link_fun; eassumption. }
    apply (chain_of_entries secs e A) with (pre := []) (g := 65535); [|easy|easy].
    intros n y L1. rewrite (HN n y L1). rewrite (occ_due e 1 n y A). symmetry. apply due_perm; easy.
  - apply (free_nums_ascend e 1 A).
  - intros n. rewrite free_nums_in. unfold added_free. split; intros (g & I); exists g.
    + apply (in_entries adds (n, g) None). eapply Permutation_in; [exact P|easy].
    + eapply Permutation_in; [symmetry; exact P|]. apply (in_entries adds (n, g) None). easy.
Qed.
