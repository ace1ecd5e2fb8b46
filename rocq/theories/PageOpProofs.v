(** Page trees: inserting and removing pages *)
From Coq Require Import String Permutation.
From Verif Require Import Base ChainProofs TokModel DictProofs OwnModel ListModel PageModel PageSpec PageProofs.
Local Open Scope Z_scope.
Local Notation dict := (list (list Z * obj)) (only parsing).
Local Notation kids_of ks := (map (fun k => ptr (tref k)) ks).

(** ** The objects of a tree *)
Lemma refs_plug gs t : Permutation (refs (plug gs t)) (map fr gs ++ ctx_refs gs ++ refs t).
Proof.
  induction gs as [|g gs IH]; [reflexivity|]. cbn [plug refs map ctx_refs app]. apply perm_skip.
  rewrite refs_app. cbn [flat_map]. rewrite IH. rewrite <- !app_assoc.
  set (A := opt (fa g)). set (B := flat_map refs (fl g)). set (C := flat_map refs (frt g)). set (M := map fr gs). set (X := ctx_refs gs). set (R := refs t).
  rewrite (Permutation_app_comm M (A ++ _)). rewrite <- !app_assoc. apply Permutation_app_head. apply Permutation_app_head.
  rewrite (Permutation_app_comm C (X ++ _)). rewrite <- !app_assoc. rewrite (Permutation_app_comm M). rewrite <- !app_assoc. apply Permutation_app_head. apply Permutation_app_head.
  apply Permutation_app_comm.
Qed.
Lemma in_plug gs t q : In q (refs (plug gs t)) <-> In q (map fr gs) \/ In q (ctx_refs gs) \/ In q (refs t).
Proof. rewrite (Permutation_in' eq_refl (refs_plug gs t)), !in_app_iff. reflexivity. Qed.
Lemma nodup_plug gs t : NoDup (refs (plug gs t)) <-> NoDup (map fr gs ++ ctx_refs gs ++ refs t).
Proof. split; apply Permutation_NoDup; [|symmetry]; apply refs_plug. Qed.
Lemma refs_kinds t : forall h up q, holds h up t -> In q (refs t) ->
  In q (leaves t) \/ (exists d, h q = Some (ODict d) /\ value_of h d "Type" (OName (bs "Pages"))) \/ exists l, h q = Some (OArr l).
Proof.
  induction t as [r|r a ks IH] using tree_ind2; intros h up q H I.
  - left. exact I.
  - rewrite holds_node in H. destruct H as [(d & E & _ & Ty & _ & _ & Ar) HK]. cbn [refs] in I. destruct I as [<-|I].
    { right. left. exists d. auto. }
    apply in_app_iff in I as [I|I].
    { right. right. destruct a as [x|]; [|destruct I]. destruct I as [<-|[]]. destruct Ar as [_ Ar]. eauto. }
    apply in_flat_map in I as (k & K & Q). rewrite Forall_forall in IH, HK. destruct (IH k K h (Some r) q (HK k K) Q) as [L|X]; [|right; exact X].
    left. cbn [leaves]. apply in_flat_map. eauto.
Qed.
Lemma page_fresh h up t p : holds h up t -> page_object h p -> ~ In p (leaves t) -> ~ In p (refs t).
Proof.
  intros H (d & E & _ & V) N I. destruct (refs_kinds t h up p H I) as [L|[(d' & E' & V')|(l & E')]]; [exact (N L)| |congruence].
  assert (d' = d) as -> by congruence. pose proof (value_det h d "Type" (OName _) (OName _) Logic.I Logic.I V V') as X. injection X. discriminate.
Qed.
Lemma ctx_counts h t : forall gs up r, holds h up (plug gs t) -> In r (map fr gs) ->
  exists d c, h r = Some (ODict d) /\ sorted d /\ value_of h d "Count" (ONum c) /\
    Z.of_nat (length (leaves t)) <= c <= Z.of_nat (length (leaves (plug gs t))).
Proof.
  induction gs as [|g gs IH]; intros up r H I; [destruct I|]. cbn [plug] in *. rewrite holds_node in H. destruct H as [(d & E & Sd & _ & _ & Ct & _) HK].
  assert (L : Z.of_nat (length (leaves (plug gs t))) <= Z.of_nat (length (leaves (Node (fr g) (fa g) (fl g ++ plug gs t :: frt g))))).
  { cbn [leaves]. rewrite flat_map_app. cbn [flat_map]. rewrite !len_app. lia. }
  cbn [map] in I. destruct I as [<-|I].
  - eexists d, _. split; [exact E|]. split; [exact Sd|]. split; [exact Ct|]. split; [|reflexivity]. cbn [leaves] in L.
    assert (Z.of_nat (length (leaves t)) <= Z.of_nat (length (leaves (plug gs t)))) by (rewrite leaves_plug, !len_app; lia). lia.
  - apply Forall_app in HK as [_ HK]. apply Forall_cons_iff in HK as [HM _]. destruct (IH _ r HM I) as (d' & c & E' & S' & V & B).
    exists d', c. repeat split; auto; lia.
Qed.
Lemma holds_focus h t : forall gs up, holds h up (plug gs t) -> exists u, holds h u t.
Proof.
  induction gs as [|g gs IH]; intros up H; [eauto|]. cbn [plug] in H. rewrite holds_node in H. destruct H as [_ HK].
  apply Forall_app in HK as [_ HK]. apply Forall_cons_iff in HK as [HM _]. exact (IH _ HM).
Qed.

(** ** Parts of the insertion *)
Lemma new_kids_pushed ps : forall old index i, new_kids ps index i true old = (old, true).
Proof. induction old as [|k old IH]; intros; [reflexivity|]. cbn [new_kids negb andb orb]. rewrite IH. reflexivity. Qed.
Lemma new_kids_ok ps : forall l r i, new_kids ps (i + Z.of_nat (length l) - 1) i false (l ++ r) =
  match r with [] => (l, false) | _ => (l ++ map to_ref ps ++ r, true) end.
Proof.
  induction l as [|k l IH]; intros r i.
  - cbn [length app]. destruct r as [|k r]; [reflexivity|]. cbn [new_kids negb andb orb].
    destruct (Z.ltb_spec (i + Z.of_nat 0 - 1) i); [|lia]. rewrite new_kids_pushed. reflexivity.
  - cbn [length app new_kids negb andb orb]. destruct (Z.ltb_spec (i + Z.of_nat (S (length l)) - 1) i); [lia|].
    replace (i + Z.of_nat (S (length l)) - 1) with ((i + 1) + Z.of_nat (length l) - 1) by lia. rewrite IH. destruct r; reflexivity.
Qed.
Lemma kid_pos_at k rt : forall l i, ~ In (tref k) (map tref l) -> kid_pos (tref k) (kids_of (l ++ k :: rt)) i = Ok (i + Z.of_nat (length l)).
Proof.
  induction l as [|y l IH]; intros i N; cbn [app map kid_pos]; unfold ptr; cbn [fst snd]; rewrite <- surjective_pairing.
  - rewrite ref_eqb_refl. cbn [length]. f_equal. lia.
  - cbn [map In] in N. destruct (ref_eqb (tref y) (tref k)) eqn:E; [apply ref_eqb_eq in E; tauto|]. rewrite IH by tauto. cbn [length]. f_equal. lia.
Qed.
Lemma kids_at_node h up r a ks : holds h up (Node r a ks) -> kids_at h r = Ok (kids_of ks).
Proof.
  rewrite holds_node. intros [(d & E & _ & _ & _ & _ & Ar) _]. unfold kids_at. rewrite (dict_at_ok h r d E). cbn [bind]. rewrite (array_find h a d _ Ar). reflexivity.
Qed.
Lemma trefs_in ks q : In q (map tref ks) -> In q (flat_map refs ks).
Proof. intros H. apply in_map_iff in H as (k & <- & K). apply in_flat_map. exists k. split; [exact K|apply tref_in]. Qed.
Lemma pos_ok h up r a l k rt : holds h up (Node r a (l ++ k :: rt)) -> NoDup (refs (Node r a (l ++ k :: rt))) ->
  pos_in_kids h (tref k) r = Ok (Z.of_nat (length l)).
Proof.
  intros H N. unfold pos_in_kids. rewrite (kids_at_node h up r a _ H). cbn [bind]. rewrite kid_pos_at; [reflexivity|].
  intros I. apply trefs_in in I. cbn [refs] in N. apply NoDup_cons_iff in N as [_ N]. apply NoDup_app_r in N. rewrite refs_app in N.
  eapply (NoDup_app_d _ _ _ N I). cbn [flat_map]. apply in_app_iff. left. apply tref_in.
Qed.

Lemma set_parents_ok parent : forall ps h, NoDup ps -> (forall p, In p ps -> exists d, h p = Some (ODict d)) ->
  exists h', set_parents h ps parent = Ok h' /\ keeps h h' /\ (forall q, ~ In q ps -> h' q = h q) /\
    (forall p d, In p ps -> h p = Some (ODict d) -> h' p = Some (ODict (dict_add (bs "Parent") (ptr parent) d))).
Proof.
  induction ps as [|p ps IH]; intros h N D.
  - exists h. split; [reflexivity|]. split; [apply keeps_refl|]. split; [auto|]. intros ? ? [].
  - destruct (D p ltac:(left; reflexivity)) as (d & E). apply NoDup_cons_iff in N as [NP N].
    set (h1 := set p (Some (ODict (dict_add (bs "Parent") (ptr parent) d))) h).
    assert (K1 : keeps h h1) by (eapply keeps_dict, E).
    destruct (IH h1 N) as (h' & R & K & O & W).
    { intros q Q. unfold h1. rewrite set_other by congruence. apply D. right. exact Q. }
    exists h'. split; [cbn [set_parents]; rewrite (set_key_ok h p _ _ d E); exact R|]. split; [eapply keeps_trans; eassumption|]. split.
    + intros q Q. rewrite O by (intros X; apply Q; right; exact X). apply set_other. intros ->. apply Q. left. reflexivity.
    + intros q e Q E'. destruct (ref_dec q p) as [->|X].
      * rewrite O by exact NP. unfold h1. rewrite set_same. congruence.
      * destruct Q as [Q|Q]; [congruence|]. apply W; [exact Q|]. unfold h1. rewrite set_other by exact X. exact E'.
Qed.

Definition kid_array (l : list tree) (ps : list ref) (rt : list tree) : list obj := kids_of (l ++ map Leaf ps ++ rt).
Lemma kid_array_eq l ps rt : kid_array l ps rt = kids_of l ++ map to_ref ps ++ kids_of rt.
Proof. unfold kid_array. rewrite !map_app, map_map. reflexivity. Qed.
Lemma leaves_leafs ps : flat_map leaves (map Leaf ps) = ps.
Proof. induction ps as [|p ps IH]; [reflexivity|]. cbn. rewrite IH. reflexivity. Qed.
Lemma refs_leafs ps : flat_map refs (map Leaf ps) = ps.
Proof. induction ps as [|p ps IH]; [reflexivity|]. cbn. rewrite IH. reflexivity. Qed.

Lemma insert_into_node_eq h parent parents index ps : ps <> [] -> insert_into_node h parent parents index ps =
    do old <- kids_at h parent;
    let '(kids, pushed) := new_kids ps index 0 false old in
    let kids := if negb pushed && (index + 1 =? Z.of_nat (length old)) then kids ++ map to_ref ps else kids in
    do h1 <- set_key h parent (bs "Kids") (OArr kids);
    do h2 <- change_counts h1 (rev parents) (Z.of_nat (length ps));
    set_parents h2 ps parent.
Proof. intros N. destruct ps; [congruence|reflexivity]. Qed.
(** What an operation leaves alone: objects outside of the tree, and the pages it had before *)
Lemma insert_node_ok h gs r a l rt ps : ps <> [] -> NoDup ps -> (forall p, In p ps -> page_object h p /\ ~ In p (refs (plug gs (Node r a (l ++ rt))))) ->
  holds h None (plug gs (Node r a (l ++ rt))) -> NoDup (refs (plug gs (Node r a (l ++ rt)))) ->
  Z.of_nat (length (leaves (plug gs (Node r a (l ++ rt)))) + length ps) < 2 ^ 31 ->
  exists h', insert_into_node h r (map fr gs ++ [r]) (Z.of_nat (length l) - 1) ps = Ok h' /\
    holds h' None (plug gs (Node r None (l ++ map Leaf ps ++ rt))) /\ NoDup (refs (plug gs (Node r None (l ++ map Leaf ps ++ rt)))) /\
    keeps h h' /\ (forall q, ~ In q (map fr gs ++ [r]) -> ~ In q ps -> h' q = h q) /\
    (forall p d, In p ps -> h p = Some (ODict d) -> h' p = Some (ODict (dict_add (bs "Parent") (ptr r) d))).
Proof.
  intros NE NP FP H N B. set (T := Node r a (l ++ rt)) in *. destruct (holds_focus h T gs None H) as (u & HT).
  pose proof HT as HT'. unfold T in HT'. rewrite holds_node in HT'. destruct HT' as [(d & E & Sd & Ty & Lk & Ct & Ar) HK].
  pose proof N as N0. rewrite nodup_plug in N0.
  assert (NF : NoDup (map fr gs ++ [r])).
  { apply NoDup_app_i; [apply NoDup_app_l in N0; exact N0|repeat constructor; auto|]. intros x X [<-|[]]. eapply NoDup_app_d; [exact N0|exact X|].
    apply in_app_iff. right. left. reflexivity. }
  assert (NR : ~ In r (ctx_refs gs)).
  { apply NoDup_app_r in N0. intros X. eapply NoDup_app_d; [exact N0|exact X|left; reflexivity]. }
  assert (NC : forall q, In q (ctx_refs gs) -> ~ In q (map fr gs ++ [r])).
  { intros q Q X. apply in_app_iff in X as [X|[<-|[]]]; [|exact (NR Q)]. eapply NoDup_app_d; [exact N0|exact X|]. apply in_app_iff. left. exact Q. }
  assert (NK : forall q, In q (flat_map refs (l ++ rt)) -> ~ In q (map fr gs ++ [r])).
  { intros q Q X. apply in_app_iff in X as [X|[<-|[]]].
    - eapply NoDup_app_d; [exact N0|exact X|]. apply in_app_iff. right. unfold T. cbn [refs]. right. apply in_app_iff. right. exact Q.
    - apply NoDup_app_r, NoDup_app_r in N0. unfold T in N0. cbn [refs] in N0. apply NoDup_cons_iff in N0 as [N0 _]. apply N0. apply in_app_iff. right. exact Q. }
  set (h1 := set r (Some (ODict (dict_add (bs "Kids") (OArr (kid_array l ps rt)) d))) h).
  assert (K1 : keeps h h1) by (eapply keeps_dict, E).
  assert (Ln : 0 < Z.of_nat (length ps)) by (destruct ps; [congruence|cbn [length]; lia]).
  assert (LT : Z.of_nat (length (leaves T)) <= Z.of_nat (length (leaves (plug gs T)))) by (rewrite leaves_plug, !len_app; lia).
  assert (Gk : forall k, bs k <> bs "Kids" -> dict_get (bs k) (dict_add (bs "Kids") (OArr (kid_array l ps rt)) d) = dict_get (bs k) d).
  { intros k X. rewrite dict_get_add by exact Sd. apply beq_neq in X. rewrite X. reflexivity. }
  destruct (change_counts_ok (Z.of_nat (length ps)) ltac:(lia) ltac:(lia) (rev (map fr gs ++ [r])) h1) as (h2 & R2 & K2 & O2 & W2).
  { apply NoDup_rev, NF. }
  { intros q Q. apply in_rev in Q. apply in_app_iff in Q as [Q|[<-|[]]].
    - destruct (ctx_counts h T gs None q H Q) as (e & c & E' & _ & V & Bc). exists e, c.
      assert (q <> r) by (intros ->; eapply NoDup_app_d; [exact NF|exact Q|left; reflexivity]).
      unfold h1. rewrite set_other by assumption. split; [exact E'|]. split; [eapply value_keeps; [exact K1|exact I|exact V]|lia].
    - eexists _, _. unfold h1 at 1. rewrite set_same. split; [reflexivity|]. split.
      + eapply value_get; [symmetry; apply Gk, bs_neq; reflexivity|]. eapply value_keeps; [exact K1|exact I|exact Ct].
      + change (Z.of_nat (length (flat_map leaves (l ++ rt))) <= Z.of_nat (length (leaves (plug gs T)))) in LT. lia. }
  assert (O2' : forall q, ~ In q (map fr gs ++ [r]) -> h2 q = h q).
  { intros q Q. rewrite O2 by (intros X; apply Q; apply in_rev, X). apply set_other. intros ->. apply Q. apply in_app_iff. right. left. reflexivity. }
  assert (PR : forall p, In p ps -> ~ In p (map fr gs ++ [r])).
  { intros p P X. destruct (FP p P) as [_ F]. apply F. apply in_plug. apply in_app_iff in X as [X|[<-|[]]]; [left; exact X|right; right; left; reflexivity]. }
  destruct (set_parents_ok r ps h2 NP) as (h3 & R3 & K3 & O3 & W3).
  { intros p P. destruct (FP p P) as [(e & E' & _) _]. exists e. rewrite O2' by (apply PR, P). exact E'. }
  exists h3.
  assert (K : keeps h h3) by (eapply keeps_trans; [exact K1|]; eapply keeps_trans; eassumption).
  assert (NG : forall g, In g (map fr gs) -> g <> r).
  { intros g G ->. eapply NoDup_app_d; [exact NF|exact G|left; reflexivity]. }
  assert (NPS : forall q, In q (map fr gs ++ [r]) -> ~ In q ps) by (intros q Q P; exact (PR q P Q)).
  assert (H3 : forall q, ~ In q (map fr gs ++ [r]) -> ~ In q ps -> h3 q = h q) by (intros q Q P; rewrite O3 by exact P; apply O2', Q).
  split; [|split; [|split; [|split; [exact K|split; [exact H3|]]]]].
  - rewrite insert_into_node_eq by exact NE.
    rewrite (kids_at_node h u r a (l ++ rt) HT). cbn [bind]. rewrite map_app.
    replace (Z.of_nat (length l) - 1) with (0 + Z.of_nat (length (kids_of l)) - 1) by (rewrite map_length; lia).
    rewrite new_kids_ok.
    transitivity (do h1 <- set_key h r (bs "Kids") (OArr (kid_array l ps rt)); do h2 <- change_counts h1 (rev (map fr gs ++ [r])) (Z.of_nat (length ps)); set_parents h2 ps r).
    { rewrite kid_array_eq. destruct (kids_of rt) as [|k0 kr].
      - rewrite !app_nil_r. destruct (Z.eqb_spec (0 + Z.of_nat (length (kids_of l)) - 1 + 1) (Z.of_nat (length (kids_of l)))); [|lia]. reflexivity.
      - reflexivity. }
    rewrite (set_key_ok h r _ _ d E). cbn [bind]. fold h1. rewrite R2. cbn [bind]. exact R3.
  - apply plug_holds with (h := h) (delta := Z.of_nat (length ps)) (t := T); [exact K|reflexivity| | |exact H| |].
    + unfold T. cbn [leaves]. rewrite !flat_map_app, leaves_leafs, !len_app. lia.
    + intros v HT2. unfold T in HT2. rewrite holds_node in HT2. destruct HT2 as [(d' & E2 & _ & _ & Lk2 & _) HK2]. assert (d' = d) as -> by congruence.
      rewrite holds_node. split.
      * exists (dict_add (bs "Count") (ONum (Z.of_nat (length (flat_map leaves (l ++ rt))) + Z.of_nat (length ps))) (dict_add (bs "Kids") (OArr (kid_array l ps rt)) d)).
        assert (S1 : sorted (dict_add (bs "Kids") (OArr (kid_array l ps rt)) d)) by (apply dict_add_sorted, Sd).
        assert (G2 : forall k, bs k <> bs "Count" -> bs k <> bs "Kids" -> dict_get (bs k) (dict_add (bs "Count") (ONum (Z.of_nat (length (flat_map leaves (l ++ rt))) + Z.of_nat (length ps))) (dict_add (bs "Kids") (OArr (kid_array l ps rt)) d)) = dict_get (bs k) d).
        { intros k X Y. rewrite dict_get_add by exact S1. apply beq_neq in X. rewrite X. apply Gk, Y. }
        split; [|split; [|split; [|split; [|split]]]].
        -- rewrite O3 by (apply NPS, in_app_iff; right; left; reflexivity). apply W2; [apply in_rev; rewrite rev_involutive; apply in_app_iff; right; left; reflexivity|unfold h1; apply set_same|].
           eapply value_get; [symmetry; apply Gk, bs_neq; reflexivity|]. eapply value_keeps; [exact K1|exact I|exact Ct].
        -- apply dict_add_sorted, S1.
        -- eapply value_get; [symmetry; apply G2; apply bs_neq; reflexivity|]. eapply value_keeps; [exact K|exact I|exact Ty].
        -- eapply linked_get; [apply G2; apply bs_neq; reflexivity|exact Lk2].
        -- left. rewrite dict_get_add, beq_refl by exact S1. rewrite !flat_map_app, leaves_leafs, !len_app. do 2 f_equal. lia.
        -- cbn [array_at]. rewrite dict_get_add by exact S1. change (beq (bs "Kids") (bs "Count")) with false. cbn match.
           rewrite dict_get_add, beq_refl by exact Sd. reflexivity.
      * assert (KX : forall k, In k (l ++ rt) -> holds h3 (Some r) k).
        { intros k IK. rewrite Forall_forall in HK2. eapply holds_ext; [|exact K|apply HK2, IK]. intros q Q. apply H3.
          - apply NK. apply in_flat_map. eauto.
          - intros P. destruct (FP q P) as [_ F]. apply F. apply in_plug. right. right. unfold T. eapply refs_kid; eassumption. }
        apply Forall_forall. intros k IK. rewrite !in_app_iff in IK. destruct IK as [IK|[IK|IK]]; [apply KX, in_app_iff; auto| |apply KX, in_app_iff; auto].
        apply in_map_iff in IK as (p & <- & P). destruct (FP p P) as [(e & E' & S' & V') _]. cbn [holds].
        exists (dict_add (bs "Parent") (ptr r) e). split; [apply W3; [exact P|rewrite O2' by (apply PR, P); exact E']|]. split; [apply dict_add_sorted, S'|]. split.
        -- eapply value_get; [|eapply value_keeps; [exact K|exact I|exact V']]. rewrite dict_get_add by exact S'. reflexivity.
        -- cbn [linked]. rewrite dict_get_add, beq_refl by exact S'. reflexivity.
    + intros g G e Eg Sg. destruct (ctx_counts h T gs None g H G) as (e' & c & E' & _ & V & _). assert (e' = e) as -> by congruence.
      exists (dict_add (bs "Count") (ONum (c + Z.of_nat (length ps))) e). split; [|split; [apply dict_add_sorted, Sg|split]].
      * rewrite O3 by (apply NPS, in_app_iff; left; exact G). apply W2; [apply in_rev; rewrite rev_involutive; apply in_app_iff; left; exact G|unfold h1; rewrite set_other by (apply NG, G); exact Eg|].
        eapply value_keeps; [exact K1|exact I|exact V].
      * intros k X. rewrite dict_get_add by exact Sg. apply beq_neq in X. rewrite X. reflexivity.
      * intros c' V'. assert (c' = c) as -> by (pose proof (value_det h e "Count" (ONum c') (ONum c) I I V' V); congruence).
        left. rewrite dict_get_add, beq_refl by exact Sg. reflexivity.
    + intros q Q. apply H3; [apply NC, Q|]. intros P. destruct (FP q P) as [_ F]. apply F. apply in_plug. right. left. exact Q.
  - rewrite nodup_plug. unfold T in N0. cbn [refs opt app] in *. rewrite !refs_app, refs_leafs in *.
    set (M := map fr gs) in *. set (C := ctx_refs gs) in *. set (A := flat_map refs l) in *. set (D := flat_map refs rt) in *.
    apply Permutation_NoDup with (l := ps ++ (M ++ C ++ r :: A ++ D)).
    + rewrite (Permutation_app_comm ps). rewrite <- !app_assoc. apply Permutation_app_head, Permutation_app_head.
      cbn [app]. apply perm_skip. rewrite <- app_assoc. apply Permutation_app_head. apply Permutation_app_comm.
    + apply NoDup_app_i; [exact NP| |].
      * apply NoDup_app_i; [apply NoDup_app_l in N0; exact N0| |].
        -- apply NoDup_app_r in N0. apply NoDup_app_i; [apply NoDup_app_l in N0; exact N0| |].
           ++ apply NoDup_app_r in N0. apply NoDup_cons_iff in N0 as [N1 N2]. constructor; [rewrite !in_app_iff in *; tauto|apply NoDup_app_r in N2; exact N2].
           ++ intros x X. pose proof (NoDup_app_d _ _ x N0 X) as Y. cbn [In] in *. rewrite !in_app_iff in *. tauto.
        -- intros x X. pose proof (NoDup_app_d _ _ x N0 X) as Y. cbn [In] in *. rewrite !in_app_iff in *. cbn [In] in *. rewrite !in_app_iff in *. tauto.
      * intros x X. destruct (FP x X) as [_ F]. intros Y. apply F. apply in_plug. unfold T. cbn [refs]. rewrite !in_app_iff in Y. cbn [In] in *. rewrite !in_app_iff in *. rewrite refs_app, in_app_iff. tauto.
  - intros p e P Ep. apply W3; [exact P|]. rewrite O2' by (apply PR, P). exact Ep.
Qed.

(** ** Inserting by index *)
Definition deepest (ks : list tree) : nat := fold_right (fun k m => Nat.max (depth k) m) O ks.
Lemma deepest_app l r : deepest (l ++ r) = Nat.max (deepest l) (deepest r).
Proof. induction l as [|k l IH]; [reflexivity|]. cbn [app deepest fold_right]. fold (deepest (l ++ r)). fold (deepest l). rewrite IH. lia. Qed.
Lemma deepest_leafs ps : deepest (map Leaf ps) = O.
Proof. induction ps as [|p ps IH]; [reflexivity|]. cbn [map deepest fold_right depth]. exact IH. Qed.
Lemma depth_node r a ks : depth (Node r a ks) = S (deepest ks).
Proof. reflexivity. Qed.
Lemma depth_plug gs : forall t t', (depth t' <= depth t)%nat -> (depth (plug gs t') <= depth (plug gs t))%nat.
Proof.
  induction gs as [|g gs IH]; intros t t' L; [exact L|]. cbn [plug]. rewrite !depth_node, !deepest_app. cbn [deepest fold_right]. fold (deepest (frt g)).
  specialize (IH t t' L). lia.
Qed.
Lemma tref_plug_node gs r a a' ks ks' : tref (plug gs (Node r a ks)) = tref (plug gs (Node r a' ks')).
Proof. destruct gs; reflexivity. Qed.
Definition is_node (t : tree) : Prop := match t with Leaf _ => False | Node _ _ _ => True end.
Lemma plug_node gs r a ks : is_node (plug gs (Node r a ks)).
Proof. destruct gs; exact I. Qed.
Lemma last_frame (gs : list frame) f (root : ref) : last (map fr (gs ++ [f])) root = fr f.
Proof. rewrite map_app. cbn [map]. apply last_last. Qed.
Lemma leaves_node_app r a l m rt : leaves (Node r a (l ++ m ++ rt)) = flat_map leaves l ++ flat_map leaves m ++ flat_map leaves rt.
Proof. cbn [leaves]. rewrite !flat_map_app. reflexivity. Qed.
Lemma firstn_len {A} (l k : list A) : firstn (length l) (l ++ k) = l.
Proof. rewrite firstn_app, Nat.sub_diag, firstn_all. cbn [firstn]. apply app_nil_r. Qed.
Lemma skipn_len {A} (l k : list A) : skipn (length l) (l ++ k) = k.
Proof. rewrite skipn_app, Nat.sub_diag, skipn_all. reflexivity. Qed.
Lemma ancestors_nodes h t : forall gs up q, holds h up (plug gs t) -> In q (map fr gs) -> exists d, h q = Some (ODict d) /\ value_of h d "Type" (OName (bs "Pages")).
Proof.
  induction gs as [|g gs IH]; intros up q H I; [destruct I|]. cbn [plug] in H. rewrite holds_node in H. destruct H as [(d & E & _ & Ty & _) HK].
  destruct I as [<-|I]; [eauto|]. apply Forall_app in HK as [_ HK]. apply Forall_cons_iff in HK as [HM _]. eapply IH; eassumption.
Qed.
Lemma leaf_types t : forall h up q, holds h up t -> In q (leaves t) -> exists d, h q = Some (ODict d) /\ value_of h d "Type" (OName (bs "Page")).
Proof.
  induction t as [r|r a ks IH] using tree_ind2; intros h up q H I.
  - destruct I as [<-|[]]. destruct H as (d & E & _ & V & _). eauto.
  - rewrite holds_node in H. destruct H as [_ HK]. cbn [leaves] in I. apply in_flat_map in I as (k & K & Q). rewrite Forall_forall in *. eapply IH; eauto.
Qed.
Lemma leaf_not_ancestor h gs t q : holds h None (plug gs t) -> In q (leaves (plug gs t)) -> ~ In q (map fr gs).
Proof.
  intros H L I. destruct (ancestors_nodes h t gs None q H I) as (d & E & V). destruct (leaf_types _ h None q H L) as (d' & E' & V').
  assert (d' = d) as -> by congruence. pose proof (value_det h d "Type" (OName _) (OName _) Logic.I Logic.I V V') as X. injection X. discriminate.
Qed.

Lemma page_root h root t : page_tree h root t -> exists a ks d, t = Node root a ks /\ h root = Some (ODict d) /\ holds h None t.
Proof.
  intros (H & _ & R & N). destruct t as [r|r a ks]; [destruct N|]. cbn in R. subst r.
  pose proof H as H'. rewrite holds_node in H'. destruct H' as [(d & E & _) _]. exists a, ks, d. auto.
Qed.
Lemma count_root h root t : page_tree h root t -> Z.of_nat (length (leaves t)) < 2 ^ 31 -> count_at h root = Ok (Z.of_nat (length (leaves t))).
Proof.
  intros H B. destruct (page_root h root t H) as (a & ks & d & -> & E & HH). unfold count_at. rewrite (dict_at_ok h root d E). cbn [bind].
  exact (count_holds h None root a ks d HH E B).
Qed.

Lemma leaf_not_above h gs r a ks q : holds h None (plug gs (Node r a ks)) -> In q (leaves (plug gs (Node r a ks))) -> ~ In q (map fr gs ++ [r]).
Proof.
  intros H L I. apply in_app_iff in I as [I|[<-|[]]]; [exact (leaf_not_ancestor h gs _ q H L I)|].
  destruct (holds_focus h _ gs None H) as (u & HF). rewrite holds_node in HF. destruct HF as [(d & E & _ & V & _) _].
  destruct (leaf_types _ h None r H L) as (d' & E' & V').
  assert (d' = d) as -> by congruence. pose proof (value_det h d "Type" (OName _) (OName _) Logic.I Logic.I V V') as X. injection X. discriminate.
Qed.
Lemma before_app gs fs : before (gs ++ fs) = before gs ++ before fs.
Proof. induction gs as [|g gs IH]; [reflexivity|]. cbn [app before]. rewrite IH, app_assoc. reflexivity. Qed.
Lemma behind_app gs fs : behind (gs ++ fs) = behind fs ++ behind gs.
Proof. induction gs as [|g gs IH]; [rewrite app_nil_r; reflexivity|]. cbn [app behind]. rewrite IH, app_assoc. reflexivity. Qed.
Lemma find_page max h root t i : page_tree h root t -> (depth t <= max)%nat -> 0 <= i < Z.of_nat (length (leaves t)) -> Z.of_nat (length (leaves t)) < 2 ^ 31 ->
  exists gs f x, t = plug gs (Node (fr f) (fa f) (fl f ++ Leaf x :: frt f)) /\ Z.of_nat (length (before (gs ++ [f]))) = i /\
    leaves t = before (gs ++ [f]) ++ x :: behind (gs ++ [f]) /\
    page_node max h i root [] = Ok (Some (x, map fr gs ++ [fr f])).
Proof.
  intros (H & N & TR & TN) D I B.
  destruct (node_find t h None max [] i H D N ltac:(intros q []) TN I B) as (fs & x & ET & NF & BF & PN).
  destruct (exists_last NF) as (gs & f & ->). exists gs, f, x. split; [rewrite ET at 1; rewrite plug_app; reflexivity|]. split; [exact BF|]. split.
  - rewrite ET at 1. rewrite leaves_plug. reflexivity.
  - rewrite TR in PN. rewrite PN, map_app. reflexivity.
Qed.

Lemma insert_ok max h root t i ps : page_tree h root t -> (depth t <= max)%nat -> insertable h (leaves t) ps -> 0 <= i ->
  exists h' t', insert_pages_at max root h i ps = Ok (Some (match leaves t with [] => i | _ => Z.min i (Z.of_nat (length (leaves t))) end, h')) /\
    page_tree h' root t' /\ leaves t' = insert_at (Nat.min (Z.to_nat i) (length (leaves t))) ps (leaves t) /\ (depth t' <= depth t)%nat /\
    keeps h h' /\ (forall q, ~ In q (refs t) -> ~ In q ps -> h' q = h q) /\ (forall q, In q (leaves t) -> h' q = h q) /\
    (forall p d, In p ps -> h p = Some (ODict d) -> exists up, h' p = Some (ODict (dict_add (bs "Parent") (ptr up) d))).
Proof.
  intros PT D (NE & NP & FP & B) I0. pose proof PT as PT'. destruct PT' as (H & N & TR & TN).
  assert (FR : forall p, In p ps -> page_object h p /\ ~ In p (refs t)).
  { rewrite Forall_forall in FP. intros p P. destruct (FP p P) as [F1 F2]. split; [exact F1|]. eapply page_fresh; eassumption. }
  unfold insert_pages_at. rewrite (count_root h root t PT) by lia. cbn [bind].
  destruct (page_root h root t PT) as (a & ks & d & ET & E & _).
  assert (GEN : forall gs r b l rt, t = plug gs (Node r b (l ++ rt)) ->
    exists h', insert_into_node h r (map fr gs ++ [r]) (Z.of_nat (length l) - 1) ps = Ok h' /\
      page_tree h' root (plug gs (Node r None (l ++ map Leaf ps ++ rt))) /\ (depth (plug gs (Node r None (l ++ map Leaf ps ++ rt))) <= depth t)%nat /\
      keeps h h' /\ (forall q, ~ In q (refs t) -> ~ In q ps -> h' q = h q) /\ (forall q, In q (leaves t) -> h' q = h q) /\
      (forall p d, In p ps -> h p = Some (ODict d) -> exists up, h' p = Some (ODict (dict_add (bs "Parent") (ptr up) d)))).
  { intros gs r b l rt ->. destruct (insert_node_ok h gs r b l rt ps NE NP FR H N B) as (h' & R & H' & N' & K & O & W).
    assert (AN : forall q, In q (map fr gs ++ [r]) -> In q (refs (plug gs (Node r b (l ++ rt))))).
    { intros q Q. apply in_plug. apply in_app_iff in Q as [Q|[<-|[]]]; [left; exact Q|right; right; left; reflexivity]. }
    exists h'. split; [exact R|]. split; [|split; [|split; [exact K|split; [|split]]]].
    - split; [exact H'|]. split; [exact N'|]. split; [rewrite <- TR; apply tref_plug_node|apply plug_node].
    - apply depth_plug. rewrite !depth_node, !deepest_app, deepest_leafs. lia.
    - intros q Q1 Q2. apply O; [intros X; apply Q1, AN, X|exact Q2].
    - intros q Q. apply O.
      + exact (leaf_not_above h gs r b (l ++ rt) q H Q).
      + intros P. destruct (FR q P) as [_ F]. apply F. apply leaf_in. exact Q.
    - intros p e P Ep. exists r. apply W; assumption. }
  destruct (leaves t) as [|lf0 lfs] eqn:EL.
  - cbn [length Z.of_nat Z.eqb negb andb bind]. rewrite Nat.min_0_r. subst t.
    destruct (GEN [] root a [] ks eq_refl) as (h' & R & PT' & D' & K & O1 & O2 & W). exists h', (plug [] (Node root None (map Leaf ps ++ ks))).
    split; [cbn [map app length] in R; change (Z.of_nat 0 - 1) with (-1) in R; rewrite R; reflexivity|].
    split; [exact PT'|]. split; [|split; [exact D'|split; [exact K|split; [exact O1|split; [exact O2|exact W]]]]].
    cbn [plug leaves] in *. rewrite flat_map_app, leaves_leafs, EL. unfold insert_at. cbn [firstn skipn app]. reflexivity.
  - rewrite <- EL in *. set (n := Z.of_nat (length (leaves t))) in *. assert (0 < n) by (unfold n; rewrite EL; cbn [length]; lia).
    destruct (Z.eqb_spec n 0); [lia|]. cbn [negb andb].
    destruct (Z.leb_spec n i) as [L|L].
    + destruct (find_page max h root t (n - 1) PT D ltac:(lia) ltac:(lia)) as (gs & f & x & ET' & BF & LV & PN). rewrite PN. cbn [bind].
      assert (BH : behind (gs ++ [f]) = []).
      { assert (Z.of_nat (length (leaves t)) = n) as X by reflexivity. rewrite LV, len_app in X. cbn [length] in X. destruct (behind (gs ++ [f])); [reflexivity|cbn [length] in X; lia]. }
      destruct (map fr gs ++ [fr f]) as [|p0 pp] eqn:EP; [destruct gs; discriminate|]. rewrite <- EP.
      replace (last (map fr gs ++ [fr f]) root) with (fr f) by (symmetry; apply last_last).
      destruct (holds_focus h (Node (fr f) (fa f) (fl f ++ Leaf x :: frt f)) gs None ltac:(rewrite <- ET'; exact H)) as (u & HF).
      pose proof N as N'. rewrite ET', nodup_plug in N'. apply NoDup_app_r, NoDup_app_r in N'.
      pose proof (pos_ok h u (fr f) (fa f) (fl f) (Leaf x) (frt f) HF N') as PO. cbn [tref] in PO. rewrite PO. cbn [bind].
      destruct (GEN gs (fr f) (fa f) (fl f ++ [Leaf x]) (frt f)) as (h' & R & PT' & D' & K & O1 & O2 & W); [rewrite <- app_assoc; exact ET'|].
      exists h', (plug gs (Node (fr f) None ((fl f ++ [Leaf x]) ++ map Leaf ps ++ frt f))).
      rewrite app_length in R. cbn [length] in R. replace (Z.of_nat (length (fl f) + 1) - 1) with (Z.of_nat (length (fl f))) in R by lia. rewrite R. cbn [bind].
      split; [rewrite Z.min_r by lia; reflexivity|].
      split; [exact PT'|]. split; [|split; [exact D'|split; [exact K|split; [exact O1|split; [exact O2|exact W]]]]].
      unfold insert_at. rewrite Nat.min_r by lia. rewrite firstn_all, skipn_all. rewrite app_nil_r. rewrite LV, BH, leaves_plug, leaves_node_app, flat_map_app, leaves_leafs.
      cbn [flat_map leaves]. rewrite before_app. rewrite behind_app in BH. cbn [behind] in BH. rewrite app_nil_l in BH. apply app_eq_nil in BH as [BH1 BH2]. rewrite BH1, BH2. cbn [before].
      rewrite !app_nil_r. rewrite <- !app_assoc. reflexivity.
    + destruct (find_page max h root t i PT D ltac:(lia) ltac:(lia)) as (gs & f & x & ET' & BF & LV & PN). rewrite PN. cbn [bind].
      destruct (map fr gs ++ [fr f]) as [|p0 pp] eqn:EP; [destruct gs; discriminate|]. rewrite <- EP.
      replace (last (map fr gs ++ [fr f]) root) with (fr f) by (symmetry; apply last_last).
      destruct (holds_focus h (Node (fr f) (fa f) (fl f ++ Leaf x :: frt f)) gs None ltac:(rewrite <- ET'; exact H)) as (u & HF).
      pose proof N as N'. rewrite ET', nodup_plug in N'. apply NoDup_app_r, NoDup_app_r in N'.
      pose proof (pos_ok h u (fr f) (fa f) (fl f) (Leaf x) (frt f) HF N') as PO. cbn [tref] in PO. rewrite PO. cbn [bind].
      destruct (GEN gs (fr f) (fa f) (fl f) (Leaf x :: frt f)) as (h' & R & PT' & D' & K & O1 & O2 & W); [exact ET'|].
      exists h', (plug gs (Node (fr f) None (fl f ++ map Leaf ps ++ Leaf x :: frt f))). rewrite R. cbn [bind].
      split; [rewrite Z.min_l by lia; reflexivity|].
      split; [exact PT'|]. split; [|split; [exact D'|split; [exact K|split; [exact O1|split; [exact O2|exact W]]]]].
      unfold insert_at. rewrite Nat.min_l by lia. replace (Z.to_nat i) with (length (before (gs ++ [f]))) by lia.
      rewrite LV, firstn_len, skipn_len, leaves_plug, leaves_node_app, leaves_leafs. cbn [flat_map leaves]. rewrite before_app, behind_app. cbn [before behind]. rewrite !app_nil_r.
      rewrite <- !app_assoc. reflexivity.
Qed.
