(** Page trees: removing pages *)
From Coq Require Import String Permutation.
From Verif Require Import Base ChainProofs TokModel DictProofs OwnModel ListModel PageModel PageSpec PageProofs PageOpProofs.
Local Open Scope Z_scope.
Local Notation dict := (list (list Z * obj)) (only parsing).
Local Notation kids_of ks := (map (fun k => ptr (tref k)) ks).

Lemma erase_nth_mid {A} (l : list A) x r : erase_nth (length l) (l ++ x :: r) = l ++ r.
Proof. induction l as [|y l IH]; [reflexivity|]. cbn. rewrite IH. reflexivity. Qed.
Lemma ptr_match {A} (q : ref) (f : Z -> Z -> A) (g : A) : match ptr q with ORef n m => f n m | _ => g end = f (fst q) (snd q).
Proof. reflexivity. Qed.

(** Taking out a kid *)
Lemma delete_node_ok h u r a l k rt : holds h u (Node r a (l ++ k :: rt)) -> NoDup (refs (Node r a (l ++ k :: rt))) ->
  exists h1 d d1, delete_node h r (Z.of_nat (length l)) = Ok h1 /\ keeps h h1 /\
    (forall q, q <> r -> ~ In q (opt a) -> h1 q = h q) /\
    h r = Some (ODict d) /\ h1 r = Some (ODict d1) /\ sorted d1 /\ (forall s, bs s <> bs "Kids" -> dict_get (bs s) d1 = dict_get (bs s) d) /\
    array_at h1 a d1 (kids_of (l ++ rt)).
Proof.
  intros H N. pose proof H as H'. rewrite holds_node in H'. destruct H' as [(d & E & Sd & _ & _ & _ & Ar) _].
  unfold delete_node. rewrite (kids_at_node h u r a _ H). cbn [bind]. rewrite map_length, app_length. cbn [length].
  destruct (Z.ltb_spec (Z.of_nat (length l)) 0); [lia|]. destruct (Z.leb_spec (Z.of_nat (length l + S (length rt))) (Z.of_nat (length l))); [lia|]. cbn [orb].
  rewrite (dict_at_ok h r d E). cbn [bind]. rewrite Nat2Z.id.
  assert (EN : erase_nth (length l) (kids_of (l ++ k :: rt)) = kids_of (l ++ rt)).
  { rewrite !map_app. cbn [map]. rewrite <- (map_length (fun k => ptr (tref k)) l) at 1. apply erase_nth_mid. }
  rewrite EN. destruct a as [q|]; cbn [array_at opt] in *; unfold get_key.
  - destruct Ar as [G A]. rewrite G, ptr_match, <- surjective_pairing.
    assert (q <> r). { intros ->. cbn [refs opt app] in N. apply NoDup_cons_iff in N as [N _]. apply N. left. reflexivity. }
    exists (set q (Some (OArr (kids_of (l ++ rt)))) h), d, d. split; [reflexivity|]. split; [eapply keeps_arr, A|]. split; [|split; [exact E|split; [|split; [exact Sd|split; [reflexivity|]]]]].
    + intros x X1 X2. apply set_other. intros ->. apply X2. left. reflexivity.
    + rewrite set_other by congruence. exact E.
    + split; [exact G|apply set_same].
  - rewrite Ar. rewrite (set_key_ok h r _ _ d E).
    eexists _, d, _. split; [reflexivity|]. split; [eapply keeps_dict, E|]. split; [|split; [exact E|split; [apply set_same|split; [apply dict_add_sorted, Sd|split]]]].
    + intros x X1 _. apply set_other, X1.
    + intros s X. rewrite dict_get_add by exact Sd. apply beq_neq in X. rewrite X. reflexivity.
    + rewrite dict_get_add, beq_refl by exact Sd. reflexivity.
Qed.

(** The node with the kid taken out, in any later heap *)
Lemma drop_holds h h' h1 r a l k rt d d1 delta : keeps h h' -> NoDup (refs (Node r a (l ++ k :: rt))) ->
  h r = Some (ODict d) -> (forall s, bs s <> bs "Kids" -> dict_get (bs s) d1 = dict_get (bs s) d) -> array_at h1 a d1 (kids_of (l ++ rt)) ->
  Z.of_nat (length (leaves k)) = delta ->
  (exists d', h' r = Some (ODict d') /\ sorted d' /\ (forall s, bs s <> bs "Count" -> dict_get (bs s) d' = dict_get (bs s) d1) /\
     (forall c, value_of h d "Count" (ONum c) -> value_of h' d' "Count" (ONum (c - delta)))) ->
  (forall q, In q (opt a) -> h' q = h1 q) -> (forall q, In q (flat_map refs (l ++ rt)) -> h' q = h q) ->
  forall u, holds h u (Node r a (l ++ k :: rt)) -> holds h' u (Node r a (l ++ rt)).
Proof.
  intros K N E G A LV (d' & E' & S' & G' & C') OA OK u H. rewrite holds_node in H |- *. destruct H as [(d0 & E0 & Sd & Ty & Lk & Ct & _) HK]. assert (d0 = d) as -> by congruence. split.
  - exists d'. split; [exact E'|]. split; [exact S'|].
    assert (GG : forall s, bs s <> bs "Count" -> bs s <> bs "Kids" -> dict_get (bs s) d' = dict_get (bs s) d) by (intros s X Y; rewrite G' by exact X; apply G, Y).
    split; [eapply value_get; [symmetry; apply GG; apply bs_neq; reflexivity|]; eapply value_keeps; [exact K|exact I|exact Ty]|].
    split; [eapply linked_get; [apply GG; apply bs_neq; reflexivity|exact Lk]|]. split.
    + specialize (C' _ Ct). rewrite !flat_map_app in *. cbn [flat_map] in C'. rewrite !len_app in *.
      replace (Z.of_nat (length (flat_map leaves l)) + Z.of_nat (length (flat_map leaves rt))) with (Z.of_nat (length (flat_map leaves l)) + (Z.of_nat (length (leaves k)) + Z.of_nat (length (flat_map leaves rt))) - delta) by lia. exact C'.
    + eapply array_ext; [apply G', bs_neq; reflexivity|exact OA|exact A].
  - apply Forall_forall. intros x X. rewrite Forall_forall in HK. eapply holds_ext; [|exact K|apply HK; rewrite in_app_iff in *; cbn [In]; tauto].
    intros q Q. apply OK. apply in_flat_map. eauto.
Qed.

Lemma nodup_drop gs r a l k rt : NoDup (refs (plug gs (Node r a (l ++ k :: rt)))) -> NoDup (refs (plug gs (Node r a (l ++ rt)))) /\
  (forall q, In q (refs (plug gs (Node r a (l ++ rt)))) -> In q (refs (plug gs (Node r a (l ++ k :: rt)))) /\ ~ In q (refs k)).
Proof.
  rewrite !nodup_plug. cbn [refs]. rewrite !refs_app. cbn [flat_map]. intros N.
  assert (P : Permutation (map fr gs ++ ctx_refs gs ++ r :: opt a ++ flat_map refs l ++ refs k ++ flat_map refs rt)
                (refs k ++ (map fr gs ++ ctx_refs gs ++ r :: opt a ++ flat_map refs l ++ flat_map refs rt))).
  { rewrite (Permutation_app_comm (refs k) (map fr gs ++ _)). rewrite <- !app_assoc. apply Permutation_app_head, Permutation_app_head.
    cbn [app]. apply perm_skip. rewrite <- !app_assoc. apply Permutation_app_head, Permutation_app_head. apply Permutation_app_comm. }
  apply (Permutation_NoDup P) in N. split; [apply NoDup_app_r in N; exact N|].
  intros q. rewrite !in_plug. cbn [refs In]. rewrite !in_app_iff, !refs_app, !in_app_iff. cbn [flat_map]. rewrite !in_app_iff. intros Q. split; [tauto|].
  intros X. eapply NoDup_app_d; [exact N|exact X|]. rewrite !in_app_iff. cbn [In]. rewrite !in_app_iff. tauto.
Qed.

(** ** Removing empty nodes *)
Lemma is_empty_ok h u r a ks : holds h u (Node r a ks) -> Z.of_nat (length (leaves (Node r a ks))) < 2 ^ 31 ->
  exists e, is_empty_node h r = Ok e /\ (e = true -> leaves (Node r a ks) = []).
Proof.
  intros H B. pose proof H as H'. rewrite holds_node in H'. destruct H' as [(d & E & _ & _ & _ & _ & Ar) _].
  unfold is_empty_node. rewrite (dict_at_ok h r d E). cbn [bind]. rewrite (count_holds h u r a ks d H E B). cbn [bind].
  rewrite (array_find h a d _ Ar). cbn [bind]. eexists. split; [reflexivity|]. intros X. apply orb_true_iff in X as [X|X].
  - apply Z.eqb_eq in X. destruct (leaves (Node r a ks)); [reflexivity|cbn [length] in X; lia].
  - destruct ks; [reflexivity|discriminate].
Qed.
Lemma ref_rev (gs : list frame) g : rev (map fr (gs ++ [g])) = fr g :: rev (map fr gs).
Proof. rewrite map_app, rev_app_distr. reflexivity. Qed.
Definition below (h h' : heap) (t t' : tree) : Prop :=
  keeps h h' /\ incl (refs t') (refs t) /\ (depth t' <= depth t)%nat /\ leaves t' = leaves t /\
  (forall q, ~ In q (refs t) -> h' q = h q) /\ (forall q, In q (leaves t) -> h' q = h q).
Lemma remove_empty_ok root : forall gs t h, holds h None (plug gs t) -> NoDup (refs (plug gs t)) -> tref (plug gs t) = root -> is_node t ->
  Z.of_nat (length (leaves (plug gs t))) < 2 ^ 31 ->
  exists h' t', remove_empty h root (tref t :: rev (map fr gs)) = Ok h' /\ page_tree h' root t' /\ below h h' (plug gs t) t'.
Proof.
  induction gs as [|g gs IH] using rev_ind; intros t h H N R TN B.
  - cbn [plug] in *. destruct t as [r|r a ks]; [destruct TN|]. cbn [tref] in *. subst r. cbn [map rev remove_empty].
    destruct (is_empty_ok h None root a ks H B) as (e & -> & _). cbn [bind]. rewrite ref_eqb_refl, andb_false_r. cbn [bind].
    exists h, (Node root a ks). split; [reflexivity|]. split; [unfold page_tree; auto|].
    unfold below. split; [apply keeps_refl|]. split; [apply incl_refl|]. auto.
  - rewrite ref_rev. rewrite plug_app in *. cbn [plug] in *.
    destruct t as [r|r a ks]; [destruct TN|]. cbn [tref].
    assert (LB : Z.of_nat (length (leaves (Node r a ks))) < 2 ^ 31).
    { pose proof (leaves_plug (gs ++ [g]) (Node r a ks)) as LP. rewrite plug_app in LP. cbn [plug] in LP. rewrite LP, !len_app in B. lia. }
    destruct (holds_focus h _ gs None H) as (u & HF).
    assert (HT : holds h (Some (fr g)) (Node r a ks)).
    { rewrite holds_node in HF. destruct HF as [_ HK]. apply Forall_app in HK as [_ HK]. apply Forall_cons_iff in HK as [HK _]. exact HK. }
    destruct (is_empty_ok h (Some (fr g)) r a ks HT LB) as (e & EE & EL).
    assert (NR : r <> root).
    { intros ->. destruct gs as [|g0 gs].
      - cbn [plug tref] in R. cbn [plug refs] in N. apply NoDup_cons_iff in N as [N _]. apply N. rewrite refs_app. apply in_app_iff. right. apply in_app_iff. right. cbn [flat_map].
        apply in_app_iff. left. rewrite R. left. reflexivity.
      - cbn [plug tref] in R. cbn [plug refs] in N. apply NoDup_cons_iff in N as [N _]. apply N. rewrite refs_app. apply in_app_iff. right. apply in_app_iff. right. cbn [flat_map].
        apply in_app_iff. left. apply in_plug. right. right. eapply refs_kid; [apply in_app_iff; right; left; reflexivity|]. rewrite R. left. reflexivity. }
    cbn [remove_empty]. rewrite EE. cbn [bind]. apply ref_eqb_neq in NR. rewrite NR. cbn [negb]. rewrite andb_true_r. destruct e.
    + (* removed *)
      specialize (EL eq_refl).
      assert (NG : NoDup (refs (Node (fr g) (fa g) (fl g ++ Node r a ks :: frt g)))).
      { pose proof N as N'. rewrite nodup_plug in N'. apply NoDup_app_r, NoDup_app_r in N'. exact N'. }
      pose proof (pos_ok h u (fr g) (fa g) (fl g) (Node r a ks) (frt g) HF NG) as PO. cbn [tref] in PO. rewrite PO. cbn [bind].
      destruct (delete_node_ok h u (fr g) (fa g) (fl g) (Node r a ks) (frt g) HF NG) as (h1 & d & d1 & D1 & K1 & O1 & E & E1 & S1 & G1 & A1).
      rewrite D1. cbn [bind].
      destruct (nodup_drop gs (fr g) (fa g) (fl g) (Node r a ks) (frt g) N) as [N2 N3].
      assert (RR : ~ In r (refs (plug gs (Node (fr g) (fa g) (fl g ++ frt g))))).
      { intros X. apply N3 in X as [_ X]. apply X. left. reflexivity. }
      assert (RG : r <> fr g) by (intros ->; apply RR; apply in_plug; right; right; left; reflexivity).
      assert (RA : ~ In r (opt (fa g))).
      { intros X. apply RR. apply in_plug. right. right. cbn [refs]. right. apply in_app_iff. left. exact X. }
      assert (ER : exists dr, h1 r = Some (ODict dr)).
      { rewrite O1 by assumption. destruct (holds_dict h _ _ HT) as (dr & Er & _). cbn [tref] in Er. eauto. }
      destruct ER as (dr & ER). set (h2 := set r None h1). assert (K2 : keeps h h2) by (eapply keeps_trans; [exact K1|eapply keeps_dict, ER]).
      set (t1 := Node (fr g) (fa g) (fl g ++ frt g)).
      assert (O2 : forall q, q <> fr g -> q <> r -> ~ In q (opt (fa g)) -> h2 q = h q).
      { intros q Q1 Q2 Q3. unfold h2. rewrite set_other by exact Q2. apply O1; assumption. }
      assert (H2 : holds h2 None (plug gs t1)).
      { apply plug_holds with (h := h) (delta := 0) (t := Node (fr g) (fa g) (fl g ++ Node r a ks :: frt g)); [exact K2|reflexivity| | |exact H| |].
        - unfold t1. cbn [leaves]. rewrite !flat_map_app. cbn [flat_map]. rewrite EL. cbn [app]. lia.
        - apply (drop_holds h h2 h1 (fr g) (fa g) (fl g) (Node r a ks) (frt g) d d1 0); auto.
          + rewrite EL. reflexivity.
          + exists d1. unfold h2. rewrite set_other by congruence. split; [exact E1|]. split; [exact S1|]. split; [reflexivity|].
            intros c V. rewrite Z.sub_0_r. eapply value_get; [symmetry; apply G1, bs_neq; reflexivity|]. eapply value_keeps; [exact K2|exact I|exact V].
          + intros q Q. unfold h2. apply set_other. intros ->. exact (RA Q).
          + intros q Q. apply O2.
            * intros ->. rewrite nodup_plug in N2. apply NoDup_app_r, NoDup_app_r in N2. cbn [refs] in N2. apply NoDup_cons_iff in N2 as [N2 _]. apply N2. apply in_app_iff. right. exact Q.
            * intros ->. apply RR. apply in_plug. right. right. cbn [refs]. right. apply in_app_iff. right. exact Q.
            * intros X. rewrite nodup_plug in N2. apply NoDup_app_r, NoDup_app_r in N2. cbn [refs] in N2. apply NoDup_cons_iff in N2 as [_ N2]. exact (NoDup_app_d _ _ _ N2 X Q).
        - intros x X dx Ex Sx. exists dx. assert (h2 x = h x) as ->.
          { rewrite nodup_plug in N2. apply O2.
            - intros ->. eapply NoDup_app_d; [exact N2|exact X|]. apply in_app_iff. right. left. reflexivity.
            - intros ->. apply RR. apply in_plug. left. exact X.
            - intros Y. eapply NoDup_app_d; [exact N2|exact X|]. apply in_app_iff. right. cbn [refs]. right. apply in_app_iff. left. exact Y. }
          split; [exact Ex|]. split; [exact Sx|]. split; [reflexivity|]. intros c V. rewrite Z.add_0_r. eapply value_keeps; [exact K2|exact I|exact V].
        - intros x X. rewrite nodup_plug in N2. apply NoDup_app_r in N2. apply O2.
          + intros ->. eapply NoDup_app_d; [exact N2|exact X|]. left. reflexivity.
          + intros ->. apply RR. apply in_plug. right. left. exact X.
          + intros Y. eapply NoDup_app_d; [exact N2|exact X|]. cbn [refs]. right. apply in_app_iff. left. exact Y. }
      assert (LV : leaves (plug gs t1) = leaves (plug gs (Node (fr g) (fa g) (fl g ++ Node r a ks :: frt g)))).
      { rewrite !leaves_plug. unfold t1. cbn [leaves]. rewrite !flat_map_app. cbn [flat_map]. rewrite EL. reflexivity. }
      destruct (IH t1 h2 H2 N2) as (h' & t' & RE & PT & KB & IB & DB & LB' & OB & PB); [rewrite <- R; apply tref_plug_node|exact I|rewrite LV; exact B|].
      exists h', t'. split; [exact RE|]. split; [exact PT|]. split; [eapply keeps_trans; eassumption|]. split; [|split; [|split; [|split]]].
      * intros q Q. apply IB in Q. apply N3 in Q as [Q _]. exact Q.
      * etransitivity; [exact DB|]. apply depth_plug. unfold t1. rewrite !depth_node, !deepest_app. cbn [deepest fold_right]. fold (deepest (frt g)). lia.
      * rewrite LB', LV. reflexivity.
      * intros q Q. rewrite OB by (intros X; apply N3 in X as [X _]; exact (Q X)). apply O2.
        -- intros ->. apply Q. apply in_plug. right. right. left. reflexivity.
        -- intros ->. apply Q. apply in_plug. right. right. eapply refs_kid; [apply in_app_iff; right; left; reflexivity|left; reflexivity].
        -- intros X. apply Q. apply in_plug. right. right. cbn [refs]. right. apply in_app_iff. left. exact X.
      * intros q Q. rewrite PB by (rewrite LV; exact Q). destruct (leaf_types _ h None q H Q) as (dq & Eq & Vq). apply O2.
        -- intros ->. apply (leaf_not_above h gs _ _ _ _ H Q). apply in_app_iff. right. left. reflexivity.
        -- intros ->. destruct (holds_dict h _ _ HT) as (dr' & Er & _ & _ & Vr). cbn [tref kind_of] in *. assert (dq = dr') as -> by congruence.
           pose proof (value_det h dr' "Type" (OName _) (OName _) I I Vq Vr) as X. injection X. discriminate.
        -- intros X. destruct (fa g) as [x|] eqn:FA; [|destruct X]. destruct X as [<-|[]]. rewrite holds_node in HF. destruct HF as [(dd & _ & _ & _ & _ & _ & Ad) _]. destruct Ad as [_ Ad]. congruence.
    + (* kept *)
      cbn [bind]. destruct (IH (Node (fr g) (fa g) (fl g ++ Node r a ks :: frt g)) h H N R I B) as (h' & t' & RE & PT & BB).
      exists h', t'. split; [exact RE|]. split; [exact PT|exact BB].
Qed.

(** ** Removing by index *)
Lemma remove_ok max h root t i : page_tree h root t -> (depth t <= max)%nat -> Z.of_nat (length (leaves t)) < 2 ^ 31 -> 0 <= i < Z.of_nat (length (leaves t)) ->
  exists h' t', remove_page_at max root h i = Ok h' /\ page_tree h' root t' /\ leaves t' = remove_at (Z.to_nat i) (leaves t) /\ (depth t' <= depth t)%nat /\
    keeps h h' /\ incl (refs t') (refs t) /\ (forall q, ~ In q (refs t) -> h' q = h q) /\ (forall q, In q (leaves t) -> h' q = h q).
Proof.
  intros PT D B I. pose proof PT as PT'. destruct PT' as (H & N & TR & TN).
  destruct (find_page max h root t i PT D I B) as (gs & f & x & ET & BF & LV & PN).
  unfold remove_page_at. rewrite PN. cbn [bind].
  destruct (map fr gs ++ [fr f]) as [|p0 pp] eqn:EP; [destruct gs; discriminate|]. rewrite <- EP.
  replace (last (map fr gs ++ [fr f]) root) with (fr f) by (symmetry; apply last_last).
  set (T := Node (fr f) (fa f) (fl f ++ Leaf x :: frt f)) in *.
  rewrite ET in H, N. destruct (holds_focus h T gs None H) as (u & HF).
  assert (NT : NoDup (refs T)) by (rewrite nodup_plug in N; apply NoDup_app_r, NoDup_app_r in N; exact N).
  pose proof (pos_ok h u (fr f) (fa f) (fl f) (Leaf x) (frt f) HF NT) as PO. cbn [tref] in PO. rewrite PO. cbn [bind].
  unfold delete_from_node.
  destruct (delete_node_ok h u (fr f) (fa f) (fl f) (Leaf x) (frt f) HF NT) as (h1 & d & d1 & D1 & K1 & O1 & E & E1 & S1 & G1 & A1).
  rewrite D1. cbn [bind].
  destruct (nodup_drop gs (fr f) (fa f) (fl f) (Leaf x) (frt f) N) as [N2 N3].
  assert (NF : NoDup (map fr gs ++ [fr f])).
  { rewrite nodup_plug in N. apply NoDup_app_i; [apply NoDup_app_l in N; exact N|repeat constructor; auto|]. intros y Y [<-|[]]. eapply NoDup_app_d; [exact N|exact Y|].
    apply in_app_iff. right. left. reflexivity. }
  assert (NA : forall q, In q (opt (fa f)) -> ~ In q (map fr gs ++ [fr f])).
  { intros q Q X. apply in_app_iff in X as [X|[<-|[]]].
    - rewrite nodup_plug in N. eapply NoDup_app_d; [exact N|exact X|]. apply in_app_iff. right. unfold T. cbn [refs]. right. apply in_app_iff. left. exact Q.
    - unfold T in NT. cbn [refs] in NT. apply NoDup_cons_iff in NT as [NT _]. apply NT, in_app_iff. left. exact Q. }
  assert (NG : forall q, In q (map fr gs) -> q <> fr f /\ ~ In q (opt (fa f))).
  { intros q Q. split; [intros ->; eapply NoDup_app_d; [exact NF|exact Q|left; reflexivity]|]. intros X. apply (NA q X). apply in_app_iff. left. exact Q. }
  assert (CT : exists cf, value_of h d "Count" (ONum cf) /\ cf = Z.of_nat (length (leaves T))).
  { pose proof HF as HF'. unfold T in HF'. rewrite holds_node in HF'. destruct HF' as [(d0 & E0 & _ & _ & _ & Ct & _) _]. assert (d0 = d) as -> by congruence. eexists. split; [exact Ct|reflexivity]. }
  destruct CT as (cf & CT & CE).
  assert (LT : 1 <= Z.of_nat (length (leaves T)) <= Z.of_nat (length (leaves t))).
  { rewrite ET, leaves_plug, !len_app. split; [|lia]. unfold T. cbn [leaves]. rewrite flat_map_app, len_app. cbn [flat_map leaves app length]. lia. }
  destruct (change_counts_ok (-1) ltac:(lia) ltac:(lia) (rev (map fr gs ++ [fr f])) h1) as (h2 & R2 & K2 & O2 & W2).
  { apply NoDup_rev, NF. }
  { intros q Q. apply in_rev in Q. apply in_app_iff in Q as [Q|[<-|[]]].
    - destruct (ctx_counts h T gs None q H Q) as (e & c & E' & _ & V & Bc). rewrite <- ET in Bc. destruct (NG q Q) as [Q1 Q2].
      exists e, c. rewrite O1 by assumption. split; [exact E'|]. split; [eapply value_keeps; [exact K1|exact Logic.I|exact V]|lia].
    - exists d1, cf. split; [exact E1|]. split; [|lia]. eapply value_get; [symmetry; apply G1, bs_neq; reflexivity|]. eapply value_keeps; [exact K1|exact Logic.I|exact CT]. }
  rewrite R2. cbn [bind]. rewrite rev_app_distr. cbn [rev app].
  set (T1 := Node (fr f) (fa f) (fl f ++ frt f)).
  assert (K : keeps h h2) by (eapply keeps_trans; eassumption).
  assert (OO : forall q, ~ In q (map fr gs ++ [fr f]) -> ~ In q (opt (fa f)) -> h2 q = h q).
  { intros q Q1 Q2. rewrite O2 by (intros X; apply Q1, in_rev, X). apply O1; [|exact Q2]. intros ->. apply Q1, in_app_iff. right. left. reflexivity. }
  assert (H2 : holds h2 None (plug gs T1)).
  { apply plug_holds with (h := h) (delta := -1) (t := T); [exact K|reflexivity| | |exact H| |].
    - unfold T1, T. cbn [leaves]. rewrite !flat_map_app. cbn [flat_map leaves]. rewrite !len_app. cbn [length]. lia.
    - unfold T. apply (drop_holds h h2 h1 (fr f) (fa f) (fl f) (Leaf x) (frt f) d d1 1); auto.
      + exists (dict_add (bs "Count") (ONum (cf + -1)) d1). split; [|split; [apply dict_add_sorted, S1|split]].
        * apply W2; [apply in_rev; rewrite rev_involutive; apply in_app_iff; right; left; reflexivity|exact E1|].
          eapply value_get; [symmetry; apply G1, bs_neq; reflexivity|]. eapply value_keeps; [exact K1|exact Logic.I|exact CT].
        * intros s X. rewrite dict_get_add by exact S1. apply beq_neq in X. rewrite X. reflexivity.
        * intros c V. assert (c = cf) as -> by (pose proof (value_det h d "Count" (ONum c) (ONum cf) Logic.I Logic.I V CT); congruence).
          left. rewrite dict_get_add, beq_refl by exact S1. reflexivity.
      + intros q Q. apply O2. intros X. apply (NA q Q). apply in_rev, X.
      + intros q Q. rewrite nodup_plug in N2. apply OO.
        * intros X. apply in_app_iff in X as [X|[<-|[]]].
          -- eapply NoDup_app_d; [exact N2|exact X|]. apply in_app_iff. right. cbn [refs]. right. apply in_app_iff. right. exact Q.
          -- apply NoDup_app_r, NoDup_app_r in N2. cbn [refs] in N2. apply NoDup_cons_iff in N2 as [N2 _]. apply N2, in_app_iff. right. exact Q.
        * intros X. apply NoDup_app_r, NoDup_app_r in N2. cbn [refs] in N2. apply NoDup_cons_iff in N2 as [_ N2]. exact (NoDup_app_d _ _ _ N2 X Q).
    - intros q Q dq Eq Sq. destruct (ctx_counts h T gs None q H Q) as (e & c & E' & _ & V & _). assert (e = dq) as -> by congruence. destruct (NG q Q) as [Q1 Q2].
      exists (dict_add (bs "Count") (ONum (c + -1)) dq). split; [|split; [apply dict_add_sorted, Sq|split]].
      + apply W2; [apply in_rev; rewrite rev_involutive; apply in_app_iff; left; exact Q|rewrite O1 by assumption; exact Eq|]. eapply value_keeps; [exact K1|exact Logic.I|exact V].
      + intros s X. rewrite dict_get_add by exact Sq. apply beq_neq in X. rewrite X. reflexivity.
      + intros c' V'. assert (c' = c) as -> by (pose proof (value_det h dq "Count" (ONum c') (ONum c) Logic.I Logic.I V' V); congruence).
        left. rewrite dict_get_add, beq_refl by exact Sq. reflexivity.
    - intros q Q. rewrite nodup_plug in N. apply OO.
      + intros X. apply in_app_iff in X as [X|[<-|[]]].
        * eapply NoDup_app_d; [exact N|exact X|]. apply in_app_iff. left. exact Q.
        * apply NoDup_app_r in N. eapply NoDup_app_d; [exact N|exact Q|left; reflexivity].
      + intros X. apply NoDup_app_r in N. eapply NoDup_app_d; [exact N|exact Q|]. unfold T. cbn [refs]. right. apply in_app_iff. left. exact X. }
  assert (LV1 : leaves (plug gs T1) = remove_at (Z.to_nat i) (leaves t)).
  { unfold remove_at. replace (Z.to_nat i) with (length (before (gs ++ [f]))) by lia. rewrite LV, firstn_len.
    replace (before (gs ++ [f]) ++ x :: behind (gs ++ [f])) with ((before (gs ++ [f]) ++ [x]) ++ behind (gs ++ [f])) by (rewrite <- app_assoc; reflexivity).
    replace (S (length (before (gs ++ [f])))) with (length (before (gs ++ [f]) ++ [x])) by (rewrite app_length; cbn [length]; lia).
    rewrite skipn_len, leaves_plug. unfold T1. cbn [leaves]. rewrite flat_map_app, before_app, behind_app. cbn [before behind]. rewrite !app_nil_r. rewrite <- !app_assoc. reflexivity. }
  assert (LB : Z.of_nat (length (leaves (plug gs T1))) < 2 ^ 31).
  { rewrite leaves_plug, !len_app. rewrite ET, leaves_plug, !len_app in B. unfold T1. unfold T in B. cbn [leaves] in *. rewrite flat_map_app, len_app in *. cbn [flat_map] in B. rewrite !len_app in B. lia. }
  destruct (remove_empty_ok root gs T1 h2 H2 N2) as (h' & t' & RE & PT' & KB & IB & DB & LB' & OB & PB); [rewrite <- TR, ET; apply tref_plug_node|exact Logic.I|exact LB|].
  exists h', t'. split; [exact RE|]. split; [exact PT'|]. split; [rewrite LB'; exact LV1|]. split; [|split; [eapply keeps_trans; eassumption|split; [|split]]].
  - etransitivity; [exact DB|]. rewrite ET. apply depth_plug. unfold T1, T. rewrite !depth_node, !deepest_app. cbn [deepest fold_right]. fold (deepest (frt f)). lia.
  - intros q Q. rewrite ET. apply IB in Q. apply N3 in Q as [Q _]. exact Q.
  - intros q Q. rewrite ET in Q. rewrite OB by (intros X; apply N3 in X as [X _]; exact (Q X)). apply OO.
    + intros X. apply Q, in_plug. apply in_app_iff in X as [X|[<-|[]]]; [left; exact X|right; right; left; reflexivity].
    + intros X. apply Q, in_plug. right. right. unfold T. cbn [refs]. right. apply in_app_iff. left. exact X.
  - intros q Q. rewrite ET in Q.
    assert (h2 q = h q) as HQ.
    { apply OO; [eapply (leaf_not_above h gs _ _ _ _ H Q)|]. intros X. destruct (leaf_types _ h None q H Q) as (dq & Eq & _).
      destruct (fa f) as [y|] eqn:FA; [|destruct X]. destruct X as [<-|[]]. unfold T in HF. rewrite holds_node in HF. destruct HF as [(dd & _ & _ & _ & _ & _ & Ad) _]. destruct Ad as [_ Ad]. congruence. }
    destruct (ref_dec q x) as [->|QX].
    + rewrite OB; [exact HQ|]. intros X. apply N3 in X as [_ X]. apply X. left. reflexivity.
    + rewrite PB; [exact HQ|]. rewrite leaves_plug in *. unfold T1. unfold T in Q. cbn [leaves] in *. rewrite !flat_map_app in *. cbn [flat_map leaves] in Q. rewrite !in_app_iff in *. cbn [In] in Q. intuition congruence.
Qed.
