(** Appending the pages of a document *)
From Coq Require Import String Lia.
From Verif Require Import Base ChainProofs TokModel OwnModel ListModel PageModel PageSpec PageProofs PageOpProofs PagePropLemmas AppendModel.
From Verif Require DictProofs MetaProofs OwnProofs OwnSpec ListSpec ListPropLemmas AppendSpec.
Local Open Scope Z_scope.

(** ** Ranges *)

Lemma skip_skip {A} (a b : nat) (l : list A) : skipn a (skipn b l) = skipn (b + a) l.
Proof. revert l; induction b as [|b IH]; intros l; [reflexivity|]. destruct l; [destruct a; reflexivity|]. cbn. apply IH. Qed.
Lemma steps_trans a la b lb c lc : steps a la b lb -> steps b lb c lc -> steps a la c lc.
Proof. intros S1 Ss. induction Ss as [b lb|b lb c lc d ld Ss IHs S2]; [exact S1|econstructor; [apply IHs, S1|exact S2]]. Qed.
Lemma steps_one a la b lb : step a la b lb -> steps a la b lb.
Proof. intros S. econstructor; [constructor|exact S]. Qed.

Lemma delete_good n : forall s l i, good s l -> 0 <= i -> i + Z.of_nat n <= Z.of_nat (length l) ->
  exists s', delete_pages s i n = (Ok tt, s') /\ steps s l s' (firstn (Z.to_nat i) l ++ skipn (Z.to_nat i + n) l) /\ good s' (firstn (Z.to_nat i) l ++ skipn (Z.to_nat i + n) l).
Proof.
  induction n as [|n IH]; intros s l i G I B; cbn [delete_pages].
  - exists s. rewrite Nat.add_0_r, firstn_skipn. split; [reflexivity|]. split; [constructor|exact G].
  - destruct (remove_good s l i G I) as (s1 & R & G1 & _). rewrite R. destruct (Z.ltb_spec i (Z.of_nat (length l))) as [L|L]; [|lia].
    assert (LR : length (remove_at (Z.to_nat i) l) = (length l - 1)%nat) by (unfold remove_at; rewrite app_length, firstn_length, skipn_length; lia).
    destruct (IH s1 (remove_at (Z.to_nat i) l) i G1 I ltac:(lia)) as (s2 & D & St & G2). rewrite D. exists s2. split; [reflexivity|].
    assert (E : firstn (Z.to_nat i) (remove_at (Z.to_nat i) l) ++ skipn (Z.to_nat i + n) (remove_at (Z.to_nat i) l) = firstn (Z.to_nat i) l ++ skipn (Z.to_nat i + S n) l).
    { unfold remove_at. set (k := Z.to_nat i). assert (Lk : length (firstn k l) = k) by (rewrite firstn_length; lia). f_equal.
      - rewrite firstn_app, Lk, Nat.sub_diag. cbn [firstn]. rewrite app_nil_r. rewrite firstn_firstn, Nat.min_id. reflexivity.
      - rewrite skipn_app, Lk. rewrite skipn_all2 by lia. cbn [app]. replace (k + n - k)%nat with n by lia.
        rewrite skip_skip. f_equal. lia. }
    rewrite E in St, G2. split; [|exact G2]. 
    eapply steps_trans; [apply steps_one; eapply step_remove; [exact I|exact R]|exact St].
Qed.
Lemma u32_id z : 0 <= z < 2 ^ 32 -> u32 z = z.
Proof. intros H. unfold u32. apply Z.mod_small, H. Qed.
Lemma range_good s own src idx cnt : good s (own ++ src) -> 0 <= idx -> 0 <= cnt -> idx + cnt <= Z.of_nat (length src) ->
  exists s', keep_range (Z.of_nat (length own)) (Z.of_nat (length src)) idx cnt s = (Ok tt, s') /\
    steps s (own ++ src) s' (own ++ firstn (Z.to_nat cnt) (skipn (Z.to_nat idx) src)).
Proof.
  intros G I C B. pose proof G as (_ & LB & _). rewrite app_length in LB.
  unfold keep_range. rewrite (u32_id (idx + cnt)) by lia. rewrite (u32_id (Z.of_nat (length src) - _)) by lia. rewrite !u32_id by lia.
  set (R := idx + cnt) in *.
  assert (X : exists s1, (if 0 <? Z.of_nat (length src) - R then delete_pages s (R + Z.of_nat (length own)) (Z.to_nat (Z.of_nat (length src) - R)) else (Ok tt, s)) = (Ok tt, s1) /\
    steps s (own ++ src) s1 (own ++ firstn (Z.to_nat R) src) /\ good s1 (own ++ firstn (Z.to_nat R) src)).
  { destruct (Z.ltb_spec 0 (Z.of_nat (length src) - R)) as [L|L].
    - destruct (delete_good (Z.to_nat (Z.of_nat (length src) - R)) s (own ++ src) (R + Z.of_nat (length own)) G ltac:(lia) ltac:(rewrite app_length; lia)) as (s1 & D & S & G1).
      assert (E : firstn (Z.to_nat (R + Z.of_nat (length own))) (own ++ src) ++ skipn (Z.to_nat (R + Z.of_nat (length own)) + Z.to_nat (Z.of_nat (length src) - R)) (own ++ src) =
        own ++ firstn (Z.to_nat R) src).
      { rewrite (skipn_all2 (own ++ src)) by (rewrite app_length; lia). rewrite app_nil_r, firstn_app. rewrite (firstn_all2 own) by lia. f_equal. f_equal. lia. }
      rewrite E in S, G1. exists s1. split; [exact D|]. split; assumption.
    - exists s. rewrite (firstn_all2 src) by lia. split; [reflexivity|]. split; [constructor|exact G]. }
  destruct X as (s1 & -> & S1 & G1). replace (0 + Z.of_nat (length own)) with (Z.of_nat (length own)) by lia.
  assert (LF : length (firstn (Z.to_nat R) src) = Z.to_nat R) by (rewrite firstn_length; lia).
  assert (EF : skipn (Z.to_nat idx) (firstn (Z.to_nat R) src) = firstn (Z.to_nat cnt) (skipn (Z.to_nat idx) src)).
  { rewrite skipn_firstn_comm. f_equal. lia. }
  destruct (Z.ltb_spec 0 idx) as [L|L].
  - destruct (delete_good (Z.to_nat idx) s1 _ (Z.of_nat (length own)) G1 ltac:(lia) ltac:(rewrite app_length, LF; lia)) as (s2 & D & S2 & G2).
    rewrite D. exists s2. split; [reflexivity|]. rewrite Nat2Z.id in S2. rewrite firstn_app, Nat.sub_diag, firstn_all, firstn_O, app_nil_r in S2.
    rewrite skipn_app, (skipn_all2 own) in S2 by lia. cbn [app] in S2. replace (length own + Z.to_nat idx - length own)%nat with (Z.to_nat idx) in S2 by lia.
    rewrite EF in S2. exact (steps_trans _ _ _ _ _ _ S1 S2).
  - exists s1. split; [reflexivity|]. replace (Z.to_nat idx) with O in * by lia. rewrite skipn_O in *. rewrite EF in S1. exact S1.
Qed.
Lemma range_beyond s own src idx cnt : good s (own ++ src) -> 0 <= idx -> 0 <= cnt -> Z.of_nat (length src) < idx + cnt -> idx + cnt + Z.of_nat (length own) < 2 ^ 32 ->
  exists s', keep_range (Z.of_nat (length own)) (Z.of_nat (length src)) idx cnt s = (Err EPageNotFound, s') /\ steps s (own ++ src) s' (own ++ src).
Proof.
  intros G I C B W. pose proof G as (_ & LB & _). rewrite app_length in LB.
  unfold keep_range. rewrite (u32_id (idx + cnt)) by lia. rewrite (u32_id (idx + cnt + _)) by lia.
  set (rc := u32 (Z.of_nat (length src) - (idx + cnt))).
  assert (RC : 0 < rc). { unfold rc, u32. rewrite <- (Z.mod_unique (Z.of_nat (length src) - (idx + cnt)) (2 ^ 32) (-1) (Z.of_nat (length src) - (idx + cnt) + 2 ^ 32)); lia. }
  destruct (Z.ltb_spec 0 rc) as [_|X]; [|lia]. destruct (Z.to_nat rc) as [|m] eqn:M; [lia|]. cbn [delete_pages].
  destruct (remove_good s (own ++ src) (idx + cnt + Z.of_nat (length own)) G ltac:(lia)) as (s1 & R & _). rewrite R.
  destruct (Z.ltb_spec (idx + cnt + Z.of_nat (length own)) (Z.of_nat (length (own ++ src)))) as [L|L]; [rewrite app_length in L; lia|].
  exists s1. split; [reflexivity|]. apply steps_one. rewrite <- (remove_out (Z.to_nat (idx + cnt + Z.of_nat (length own))) (own ++ src)) at 2 by (rewrite app_length in *; lia).
  eapply step_remove; [|exact R]. lia.
Qed.
Lemma range_all s own p src : good s ((own ++ [p]) ++ src) ->
  exists s', keep_range (Z.of_nat (length (own ++ [p]))) (Z.of_nat (length src)) 0 (2 ^ 32 - 1) s = (Ok tt, s') /\ steps s ((own ++ [p]) ++ src) s' own.
Proof.
  intros G. pose proof G as (_ & LB & _). rewrite !app_length in LB. cbn [length] in LB.
  unfold keep_range. rewrite app_length. cbn [length]. rewrite (u32_id (0 + (2 ^ 32 - 1))) by lia.
  assert (R1 : u32 (Z.of_nat (length src) - (0 + (2 ^ 32 - 1))) = Z.of_nat (length src) + 1).
  { unfold u32. symmetry. apply Z.mod_unique with (q := -1); lia. }
  assert (R2 : u32 (0 + (2 ^ 32 - 1) + Z.of_nat (length own + 1)) = Z.of_nat (length own)).
  { unfold u32. symmetry. apply Z.mod_unique with (q := 1); lia. }
  rewrite R1, R2. destruct (Z.ltb_spec 0 (Z.of_nat (length src) + 1)) as [_|X]; [|lia].
  destruct (delete_good (Z.to_nat (Z.of_nat (length src) + 1)) s _ (Z.of_nat (length own)) G ltac:(lia) ltac:(rewrite !app_length; cbn [length]; lia)) as (s1 & D & S & _).
  rewrite D. exists s1. split; [reflexivity|]. rewrite (skipn_all2 ((own ++ [p]) ++ src)) in S by (rewrite !app_length; cbn [length]; lia). rewrite app_nil_r in S.
  rewrite Nat2Z.id, <- app_assoc, firstn_app, Nat.sub_diag, firstn_all, firstn_O, app_nil_r in S. rewrite <- app_assoc. exact S.
Qed.

(** ** Entries *)

Notation dict0 := (list (list Z * obj)).
Lemma adopt_keys_ok fuel look diff sd ks : forall d, NoDup ks -> (forall k, In k ks -> find_key_parent fuel look k sd <> Fuel) -> DictProofs.sorted d ->
  exists d', adopt_keys fuel look diff sd ks d = Ok d' /\ DictProofs.sorted d' /\
    (forall k, ~ In k ks -> dict_get k d' = dict_get k d) /\
    (forall k, In k ks -> exists r, find_key_parent fuel look k sd = Ok r /\ dict_get k d' = match r with Some o => Some (fix_refs diff o) | None => dict_get k d end).
Proof.
  induction ks as [|k ks IH]; intros d N F S; cbn [adopt_keys].
  - exists d. split; [reflexivity|]. split; [exact S|]. split; [reflexivity|intros ? []].
  - inversion N as [|? ? Nk Nks]; subst. destruct (OwnProofs.find_parent_never look k fuel sd) as [E|(r & E)]; [destruct (F k (or_introl eq_refl) E)|].
    rewrite E. cbn [bind]. set (d1 := match r with Some o => add_key k (fix_refs diff o) d | None => d end).
    assert (S1 : DictProofs.sorted d1) by (unfold d1; destruct r; [apply DictProofs.dict_add_sorted, S|exact S]).
    assert (G1 : forall q, dict_get q d1 = if beq q k then match r with Some o => Some (fix_refs diff o) | None => dict_get q d end else dict_get q d).
    { intros q. unfold d1. destruct r; [apply (DictProofs.dict_get_add k _ q d S)|destruct (beq q k); reflexivity]. }
    destruct (IH d1 Nks ltac:(intros q Q; apply F; right; exact Q) S1) as (d' & A & S' & Ot & Al). exists d'. split; [exact A|]. split; [exact S'|]. split.
    + intros q Nq. rewrite Ot by (intros Q; apply Nq; right; exact Q). rewrite G1. destruct (beq q k) eqn:B; [|reflexivity]. apply beq_eq in B. subst q. destruct Nq. left. reflexivity.
    + intros q [<-|Q].
      * exists r. split; [exact E|]. rewrite (Ot k Nk), G1, beq_refl. reflexivity.
      * destruct (Al q Q) as (r' & E' & G'). exists r'. split; [exact E'|]. rewrite G', G1. destruct (beq q k) eqn:B; [apply beq_eq in B; subst q; contradiction|reflexivity].
Qed.
Lemma inheritable_nodup : NoDup inheritable.
Proof. repeat (constructor; [cbn; intros H; repeat destruct H as [H|H]; try discriminate H; destruct H|]). constructor. Qed.
Lemma parent_not : ~ In (bs "Parent") inheritable.
Proof. cbn. intros H. repeat destruct H as [H|H]; try discriminate H. destruct H. Qed.
Lemma adopt_ok fuel look diff p h sd d : look p = Some (ODict sd) -> 0 <= fst p -> 0 <= diff -> fst p + diff < 2 ^ 32 -> h (AppendSpec.moved diff p) = Some (ODict d) -> DictProofs.sorted d ->
  (forall k, In k AppendSpec.inherited -> find_key_parent fuel look k sd <> Fuel) ->
  exists d', adopt_page fuel look diff p h = Ok (set (AppendSpec.moved diff p) (Some (ODict d')) h) /\ DictProofs.sorted d' /\ AppendSpec.taken_over look diff sd d d' /\
    dict_get (bs "Parent") d' = None.
Proof.
  intros L P0 D0 B H S F. unfold adopt_page, dict_at. rewrite L. cbn [bind]. rewrite u32_id by lia. fold (AppendSpec.moved diff p). rewrite H.
  set (d1 := if has_key (bs "Parent") d then snd (remove_key (bs "Parent") d) else d).
  assert (X : DictProofs.sorted d1 /\ forall q, dict_get q d1 = if beq q (bs "Parent") then None else dict_get q d).
  { unfold d1, remove_key, has_key. destruct (dict_get (bs "Parent") d) eqn:G; cbn [snd].
    - split; [apply MetaProofs.erase_sorted, S|apply MetaProofs.erase_get, DictProofs.sorted_nodup, S].
    - split; [exact S|]. intros q. destruct (beq q (bs "Parent")) eqn:Q; [apply beq_eq in Q; subst q; exact G|reflexivity]. }
  destruct X as (S1 & G1).
  destruct (adopt_keys_ok fuel look diff sd inheritable d1 inheritable_nodup F S1) as (d' & A & S' & Ot & Al). rewrite A. cbn [bind]. exists d'.
  split; [reflexivity|]. split; [exact S'|]. split; [|rewrite (Ot _ parent_not), G1, beq_refl; reflexivity].
  assert (NP : forall k, In k inheritable -> beq k (bs "Parent") = false) by (intros k K; destruct (beq k (bs "Parent")) eqn:Q; [apply beq_eq in Q; subst k; destruct (parent_not K)|reflexivity]).
  split; [|split].
  - intros k v K V Sm. destruct (Al k K) as (r & E & G). apply OwnProofs.found_inherits in E.
    assert (r = Some v).
    { destruct (OwnProofs.inherits_found look k sd _ V) as (n1 & F1). destruct (OwnProofs.inherits_found look k sd _ E) as (n2 & F2).
      specialize (F1 (n1 + n2)%nat ltac:(lia)). specialize (F2 (n1 + n2)%nat ltac:(lia)). congruence. }
    subst r. exists (fix_refs diff v). split; [apply ListPropLemmas.fix_refs_shifted; assumption|exact G].
  - intros k K V. destruct (Al k K) as (r & E & G). apply OwnProofs.found_inherits in E.
    assert (r = None).
    { destruct (OwnProofs.inherits_found look k sd _ V) as (n1 & F1). destruct (OwnProofs.inherits_found look k sd _ E) as (n2 & F2).
      specialize (F1 (n1 + n2)%nat ltac:(lia)). specialize (F2 (n1 + n2)%nat ltac:(lia)). congruence. }
    subst r. rewrite G, G1, (NP k K). reflexivity.
  - intros k K Np. rewrite (Ot k K), G1. destruct (beq k (bs "Parent")) eqn:Q; [apply beq_eq in Q; contradiction|reflexivity].
Qed.

(** ** Pages *)

(** A copy of a page that is not in the tree yet *)
Definition copied (look : heap) (fuel : nat) (diff : Z) (l : list ref) (h : heap) (p : ref) : Prop :=
  0 <= fst p /\ fst p + diff < 2 ^ 32 /\ page_object h (AppendSpec.moved diff p) /\ ~ In (AppendSpec.moved diff p) l /\
  exists sd, look p = Some (ODict sd) /\ forall k, In k AppendSpec.inherited -> find_key_parent fuel look k sd <> Fuel.
Lemma moved_inj diff p q : AppendSpec.moved diff p = AppendSpec.moved diff q -> p = q.
Proof. destruct p as [a b], q as [c d]. unfold AppendSpec.moved. cbn [fst snd]. intros H. apply pair_equal_spec in H. destruct H as (H & ->). f_equal. lia. Qed.
Lemma page_keeps h h' q : keeps h h' -> h' q = h q -> page_object h q -> page_object h' q.
Proof.
  intros K E (d & H & So & V). exists d. split; [congruence|]. split; [exact So|]. eapply value_keeps; [exact K|exact Logic.I|exact V].
Qed.
(** The tree of a document is the only one *)
Lemma tree_same h t : forall t' up up', holds h up t -> holds h up' t' -> tref t = tref t' -> t = t'.
Proof.
  induction t as [r|r a ks IH] using tree_ind2; intros [r'|r' a' ks'] up up' H H' E; cbn [tref] in E; subst r'.
  - reflexivity.
  - exfalso. rewrite holds_node in H'. destruct H' as [(d' & E' & _ & V' & _) _]. destruct H as (d & E & _ & V & _).
    assert (d' = d) as -> by congruence. pose proof (value_det h d "Type" (OName _) (OName _) Logic.I Logic.I V V') as X. injection X. discriminate.
  - exfalso. rewrite holds_node in H. destruct H as [(d' & E' & _ & V' & _) _]. destruct H' as (d & E & _ & V & _).
    assert (d' = d) as -> by congruence. pose proof (value_det h d "Type" (OName _) (OName _) Logic.I Logic.I V V') as X. injection X. discriminate.
  - rewrite holds_node in H, H'. destruct H as [(d & E & _ & _ & _ & _ & A) K], H' as [(d' & E' & _ & _ & _ & _ & A') K'].
    assert (d' = d) as -> by congruence.
    assert (X : a = a' /\ map (fun k => ptr (tref k)) ks = map (fun k => ptr (tref k)) ks').
    { destruct a as [x|], a' as [x'|]; cbn [array_at] in A, A'.
      - destruct A as [A B], A' as [A' B']. rewrite A in A'. assert (Q : ptr x = ptr x') by congruence. apply ptr_inj in Q. subst x'. rewrite B in B'. split; [reflexivity|congruence].
      - destruct A as [A B]. rewrite A in A'. discriminate A'.
      - destruct A' as [A' B]. rewrite A in A'. discriminate A'.
      - rewrite A in A'. split; [reflexivity|congruence]. }
    destruct X as (<- & X). f_equal. clear - IH K K' X. revert ks' K' X. induction ks as [|k ks IHk]; intros [|k' ks'] K' X; try discriminate X; [reflexivity|].
    cbn [map] in X. apply Forall_cons_iff in IH as [I1 I2]. apply Forall_cons_iff in K as [K1 K2]. apply Forall_cons_iff in K' as [J1 J2].
    assert (Q : ptr (tref k) = ptr (tref k') /\ map (fun k => ptr (tref k)) ks = map (fun k => ptr (tref k)) ks') by (split; congruence). destruct Q as (Q1 & Q2).
    f_equal; [exact (I1 k' _ _ K1 J1 (ptr_inj _ _ Q1))|exact (IHk I2 K2 ks' J2 Q2)].
Qed.
Lemma append_one_page fuel look diff p s l : 0 <= diff -> good s l -> Z.of_nat (length l + 1) < 2 ^ 31 -> copied look fuel diff l (pheap s) p ->
  exists s2 sd d0 d' up, (do h <- adopt_page fuel look diff p (pheap s); let s := mk_pages (pmax s) (proot s) h (pcache s) in
      do n <- page_count s; insert_pages s n [(u32 (fst p + diff), snd p)]) = Ok s2 /\
    good s2 (l ++ [AppendSpec.moved diff p]) /\ steps s l s2 (l ++ [AppendSpec.moved diff p]) /\ look p = Some (ODict sd) /\ pheap s (AppendSpec.moved diff p) = Some (ODict d0) /\
    pheap s2 (AppendSpec.moved diff p) = Some (ODict (dict_add (bs "Parent") (ptr up) d')) /\ DictProofs.sorted d' /\ AppendSpec.taken_over look diff sd d0 d' /\
    keeps (pheap s) (pheap s2) /\ (forall q, In q l -> pheap s2 q = pheap s q) /\
    forall q, page_object (pheap s) q -> ~ In q l -> q <> AppendSpec.moved diff p -> pheap s2 q = pheap s q.
Proof.
  intros D0 G B (P0 & PB & PO & NI & sd & L & F). pose proof PO as (d0 & H0 & S0 & V0).
  destruct (adopt_ok fuel look diff p (pheap s) sd d0 L P0 D0 PB H0 S0 F) as (d' & A & S' & T & NP). rewrite A. cbn [bind]. cbv zeta.
  rewrite u32_id by lia. fold (AppendSpec.moved diff p).
  set (r := AppendSpec.moved diff p) in *. set (s1 := mk_pages (pmax s) (proot s) (set r (Some (ODict d')) (pheap s)) (pcache s)).
  pose proof G as ((t0 & PT0 & LV & Dp) & LB & _).
  assert (NR : forall t, page_tree (pheap s) (proot s) t -> ~ In r (refs t)).
  { intros t PT. assert (t = t0) as -> by (destruct PT as (H & _ & TR & _), PT0 as (H' & _ & TR' & _); eapply tree_same; [exact H|exact H'|congruence]).
    destruct PT0 as (H & _). eapply page_fresh; [exact H|exact PO|rewrite LV; exact NI]. }
  assert (NS : forall v, pheap s r = Some v -> ~ scalar v) by (intros v V; rewrite H0 in V; injection V as <-; intros []).
  assert (G1 : good s1 l) by (apply other_good; assumption).
  assert (K1 : keeps (pheap s) (pheap s1)) by (apply keeps_set, NS).
  assert (PO1 : page_object (pheap s1) r).
  { exists d'. split; [apply set_same|]. split; [exact S'|]. eapply value_keeps; [exact K1|exact Logic.I|]. eapply value_get; [|exact V0]. symmetry. apply T; [|discriminate].
    cbn. intros X. repeat destruct X as [X|X]; try discriminate X. destruct X. }
  assert (INS : insertable (pheap s1) l [r]).
  { split; [discriminate|]. split; [constructor; [intros []|constructor]|]. split; [|cbn [length]; exact B]. constructor; [split; [exact PO1|exact NI]|constructor]. }
  rewrite (count_ok s1 l G1). cbn [bind].
  destruct (insert_good s1 l (Z.of_nat (length l)) [r] G1 ltac:(lia) INS) as (s2 & IE & G2 & _).
  assert (EL : insert_at (Nat.min (Z.to_nat (Z.of_nat (length l))) (length l)) [r] l = l ++ [r]).
  { rewrite Nat2Z.id, Nat.min_id. unfold insert_at. rewrite firstn_all, skipn_all, app_nil_r. reflexivity. }
  pose proof G1 as ((t & PT & LV1 & Dp1) & _).
  destruct (insert_ok (pmax s1) (pheap s1) (proot s1) t (Z.of_nat (length l)) [r] PT Dp1 ltac:(rewrite LV1; exact INS) ltac:(lia)) as (h2 & t2 & IA & _ & _ & _ & K2 & O2 & L2 & P2).
  assert (PH : pheap s2 = h2) by (unfold insert_pages in IE; rewrite IA in IE; cbn [bind] in IE; apply ok_inj in IE; subst s2; reflexivity).
  destruct (P2 r d' (or_introl eq_refl) (set_same _ _ _)) as (up & U).
  exists s2, sd, d0, d', up. split; [exact IE|]. rewrite EL in G2. split; [exact G2|]. split.
  { eapply steps_trans; [apply steps_one; eapply (step_other s l r (Some (ODict d'))); [exact NR|intros v V; rewrite H0 in V; injection V as <-; exact Logic.I]|].
    apply steps_one. rewrite <- EL. eapply step_insert; [lia|exact INS|exact IE]. }
  split; [exact L|]. split; [exact H0|]. split; [rewrite PH; exact U|]. split; [exact S'|]. split; [exact T|]. rewrite PH.
  split; [eapply keeps_trans; eassumption|]. split.
  - intros q Q. rewrite L2 by (rewrite LV1; exact Q). apply set_other. intros ->. contradiction.
  - intros q PQ NQ NE. assert (E1 : pheap s1 q = pheap s q) by (apply set_other, NE). rewrite <- E1. apply O2; [|intros [X|[]]; congruence].
    destruct PT as (H & _). eapply page_fresh; [exact H|eapply page_keeps; [exact K1|exact E1|exact PQ]|rewrite LV1; exact NQ].
Qed.
Lemma append_ok fuel look diff src : 0 <= diff -> forall s l, good s l -> Z.of_nat (length l + length src) < 2 ^ 31 -> NoDup src -> Forall (copied look fuel diff l (pheap s)) src ->
  exists s', append_pages fuel look diff src s = Ok s' /\ good s' (l ++ map (AppendSpec.moved diff) src) /\ steps s l s' (l ++ map (AppendSpec.moved diff) src) /\
    (forall q, In q l -> pheap s' q = pheap s q) /\
    forall p, In p src -> exists sd d0 d' up, look p = Some (ODict sd) /\ pheap s (AppendSpec.moved diff p) = Some (ODict d0) /\ DictProofs.sorted d' /\
      pheap s' (AppendSpec.moved diff p) = Some (ODict (dict_add (bs "Parent") (ptr up) d')) /\ AppendSpec.taken_over look diff sd d0 d'.
Proof.
  intros D0. induction src as [|p src IH]; intros s l G B N C; cbn [append_pages].
  - exists s. cbn [map]. rewrite app_nil_r. split; [reflexivity|]. split; [exact G|]. split; [constructor|]. split; [reflexivity|intros ? []].
  - apply Forall_cons_iff in C as [C Cs]. inversion N as [|? ? Np Ns]; subst. cbn [length] in B.
    destruct (append_one_page fuel look diff p s l D0 G ltac:(lia) C) as (s2 & sd & d0 & d' & up & E & G2 & S2 & L & H0 & H2 & So & T & K & OL & OP).
    set (r := AppendSpec.moved diff p) in *.
    assert (Ne : forall q, In q src -> AppendSpec.moved diff q <> r) by (intros q Q X; apply moved_inj in X; subst q; contradiction).
    assert (Same : forall q, In q src -> pheap s2 (AppendSpec.moved diff q) = pheap s (AppendSpec.moved diff q)).
    { intros q Q. rewrite Forall_forall in Cs. destruct (Cs q Q) as (_ & _ & PO & NI & _). apply OP; [exact PO|exact NI|apply Ne, Q]. }
    destruct (IH s2 (l ++ [r]) G2 ltac:(rewrite app_length; cbn [length]; lia) Ns) as (s' & A & G' & St & OL' & R).
    { rewrite Forall_forall in *. intros q Q. destruct (Cs q Q) as (A1 & A2 & A3 & A4 & A5). split; [exact A1|]. split; [exact A2|].
      split; [eapply page_keeps; [exact K|apply Same, Q|exact A3]|]. split; [|exact A5]. rewrite in_app_iff. intros [X|[X|[]]]; [exact (A4 X)|exact (Ne q Q (eq_sym X))]. }
    exists s'. split.
    { destruct (adopt_page fuel look diff p (pheap s)); try discriminate E. cbn [bind] in *. cbv zeta in *.
      destruct (page_count _) in *; try discriminate E. cbn [bind] in *. rewrite E. cbn [bind]. exact A. }
    cbn [map]. rewrite <- app_assoc in G', St. cbn [app] in G', St. split; [exact G'|]. split; [eapply steps_trans; eassumption|].
    split; [intros q Q; rewrite OL' by (apply in_app_iff; left; exact Q); apply OL, Q|].
    intros q [<-|Q].
    + exists sd, d0, d', up. split; [exact L|]. split; [exact H0|]. split; [exact So|]. split; [|exact T]. rewrite OL' by (apply in_app_iff; right; left; reflexivity). exact H2.
    + destruct (R q Q) as (sd' & e0 & e' & up' & X1 & X2 & X3 & X4 & X5). exists sd', e0, e', up'. rewrite <- (Same q Q). repeat (split; [assumption|]). assumption.
Qed.
