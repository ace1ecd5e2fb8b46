(** Name trees: balancing and additions *)
From Coq Require Import String Sorting.Sorted.
From Verif Require Import Base ChainProofs TokModel DictProofs OwnModel ListModel PageModel PageSpec PageProofs NameModel NameSpec NameProofs.
Local Open Scope Z_scope.
Local Notation dict := (list (list Z * obj)) (only parsing).
Local Notation ptrs ks := (map (fun k => ptr (nref k)) ks).

(** Numbers from the next one on are not used *)
Definition fresh (s : doc) : Prop := forall q, dnext s <= fst q -> dheap s q = None.
(** The tree [t], a kid of [p] between [pre] and [post], has been replaced by [ts] *)
Definition after (s s' : doc) (t : ntree) (ts : list ntree) (p : ref) (dp : dict) (above : bool) (pre post : list ntree) : Prop :=
  fresh s' /\ dnext s <= dnext s' /\ Forall (stored (dheap s') false) ts /\ ts <> [] /\ NoDup (flat_map nrefs ts) /\
  (forall q, In q (flat_map nrefs ts) -> In q (nrefs t) \/ dnext s <= fst q) /\
  (forall q, ~ In q (nrefs t) -> q <> p -> fst q < dnext s -> dheap s' q = dheap s q) /\
  (forall x, In x ts -> (levels x <= levels t)%nat) /\
  exists dp', dheap s' p = Some (ODict dp') /\ sorted dp' /\ dict_get (bs "Kids") dp' = Some (OArr (ptrs (pre ++ ts ++ post))) /\
    (dict_get (bs "Limits") dp' = dict_get (bs "Limits") dp \/ above = true /\ limits false (flat_map entries (pre ++ ts ++ post)) dp').

Lemma below s r : fresh s -> dheap s r <> None -> fst r < dnext s.
Proof. intros F N. destruct (Z.lt_ge_cases (fst r) (dnext s)) as [L|L]; [exact L|]. elim N. apply F, L. Qed.
Lemma stored_below s top t q : fresh s -> stored (dheap s) top t -> In q (nrefs t) -> fst q < dnext s.
Proof. intros F H I. destruct (stored_some t _ _ H q I) as (d & E). apply below; [exact F|]. rewrite E. discriminate. Qed.
Lemma put_behind_ok c1 c2 : forall pre post, ~ In c1 (map nref pre) ->
  put_behind c1 c2 (ptrs pre ++ ptr c1 :: post) = Ok (Some (ptrs pre ++ ptr c1 :: ptr c2 :: post)).
Proof.
  induction pre as [|k pre IH]; intros post N; cbn [map app put_behind].
  - unfold ref_of, ptr at 1. cbn [bind]. rewrite <- surjective_pairing, ref_eqb_refl. reflexivity.
  - unfold ref_of, ptr at 1. cbn [bind]. rewrite <- surjective_pairing. cbn [map In] in N. destruct (ref_eqb (nref k) c1) eqn:E; [apply ref_eqb_eq in E; tauto|].
    rewrite IH by tauto. reflexivity.
Qed.
Lemma set_comm_eq h r o q : q <> r -> set r o h q = h q.
Proof. apply set_other. Qed.
Lemma nrefs_map_in l q : In q (map nref l) -> In q (flat_map nrefs l).
Proof. intros I. apply in_map_iff in I as (k & <- & I). apply in_flat_map. exists k. split; [exact I|apply nref_in]. Qed.
Lemma Forall_firstn {A} (P : A -> Prop) n l : Forall P l -> Forall P (firstn n l).
Proof. intros F. rewrite <- (firstn_skipn n l) in F. apply Forall_app in F. tauto. Qed.
Lemma Forall_skipn {A} (P : A -> Prop) n l : Forall P l -> Forall P (skipn n l).
Proof. intros F. rewrite <- (firstn_skipn n l) in F. apply Forall_app in F. tauto. Qed.
Lemma stored_kids h h' l : (forall k q, In k l -> In q (nrefs k) -> h' q = h q) -> Forall (stored h false) l -> Forall (stored h' false) l.
Proof. intros E F. rewrite Forall_forall in *. intros k I. apply (stored_ext k h); [intros q Q; apply (E k q I Q)|apply F, I]. Qed.

Lemma rebalance_ok s t p dp above pre post : fresh s -> stored (dheap s) false t -> dheap s p = Some (ODict dp) -> sorted dp ->
  dict_get (bs "Kids") dp = Some (OArr (ptrs (pre ++ t :: post))) -> NoDup (p :: flat_map nrefs (pre ++ t :: post)) -> Forall (stored (dheap s) false) (pre ++ post) ->
  exists s' ts, rebalance s (nref t) (is_node t) (Some (p, above)) = Ok s' /\ flat_map entries ts = entries t /\ after s s' t ts p dp above pre post.
Proof.
  intros FR HT EP SP KP ND HO. pose proof HT as HT'. rewrite stored_iff in HT'. destruct HT' as [(d & E & Sd & Sh & Li) K].
  unfold rebalance. rewrite (dict_at_val _ _ d E). cbn [bind]. change (bs (if is_node t then "Kids" else "Names")) with (key_of t).
  rewrite (direct_array _ _ d _ (content_get t d Sh)). cbn [bind]. change (if is_node t then max_kids else (max_kids * 2)%nat) with (len_limit (is_node t)). rewrite split_len.
  rewrite flat_map_app in ND. cbn [flat_map] in ND. pose proof (NoDup_cons_iff p (flat_map nrefs pre ++ nrefs t ++ flat_map nrefs post)) as NP. apply NP in ND as [PI ND]. clear NP.
  assert (NT : NoDup (nrefs t)) by (apply NoDup_app_r, NoDup_app_l in ND; exact ND).
  assert (PT : ~ In p (nrefs t)) by (intros X; apply PI; rewrite !in_app_iff; auto).
  destruct (Nat.ltb_spec 65 (size t)) as [L|L].
  2:{ exists s, [t]. split; [reflexivity|]. split; [cbn; apply app_nil_r|]. split; [exact FR|]. split; [lia|]. split; [constructor; [exact HT|constructor]|]. split; [discriminate|].
      split; [cbn [flat_map]; rewrite app_nil_r; exact NT|]. split; [intros q; cbn [flat_map]; rewrite app_nil_r; auto|]. split; [reflexivity|]. split; [intros x [<-|[]]; lia|].
      exists dp. split; [exact EP|]. split; [exact SP|]. split; [exact KP|]. left. reflexivity. }
  rewrite (dict_at_val _ _ dp EP). cbn [bind]. rewrite (direct_array _ _ dp _ KP). cbn [bind]. unfold new_object. cbn [dheap dnext].
  set (r := nref t) in *. set (c2 := (dnext s, 0)).
  assert (RL : fst r < dnext s) by (apply (stored_below s false t r FR HT), nref_in).
  assert (PL : fst p < dnext s) by (apply below; [exact FR|rewrite EP; discriminate]).
  assert (C2 : dheap s c2 = None) by (apply FR; cbn; lia).
  assert (RC : r <> c2) by (intros X; rewrite X in RL; cbn in RL; lia). assert (PC : p <> c2) by (intros X; rewrite X in PL; cbn in PL; lia).
  assert (RP : r <> p) by (intros X; apply PT; rewrite <- X; apply nref_in).
  rewrite (lo_content t r), (hi_content t c2).
  rewrite (set_key_val _ r (key_of t) _ d) by (rewrite set_other by exact RC; exact E). cbn [bind].
  rewrite (set_key_val _ c2 (key_of t) _ []) by (rewrite set_other by congruence; apply set_same). cbn [bind].
  rewrite map_app. cbn [map]. rewrite (put_behind_ok r c2 pre). 2:{ intros X. apply nrefs_map_in in X. eapply NoDup_app_d; [exact ND|exact X|]. apply in_app_iff. left. apply nref_in. }
  cbn [bind]. change (dict_add (key_of t) (OArr (content (hi c2 t))) []) with [(key_of t, OArr (content (hi c2 t)))].
  set (d1 := dict_add (key_of t) (OArr (content (lo r t))) d). set (d2 := [(key_of t, OArr (content (hi c2 t)))]).
  set (h3 := set c2 (Some (ODict d2)) (set r (Some (ODict d1)) (set c2 (Some (ODict [])) (dheap s)))).
  rewrite (set_key_val h3 p (bs "Kids") _ dp) by (unfold h3; rewrite !set_other by congruence; exact EP). cbn [bind].
  set (dp1 := dict_add (bs "Kids") (OArr (ptrs pre ++ ptr r :: ptr c2 :: ptrs post)) dp). set (h4 := set p (Some (ODict dp1)) h3).
  assert (S1 : sorted d1) by (apply dict_add_sorted, Sd). assert (S2 : sorted d2) by (apply (dict_add_sorted (key_of t) (OArr (content (hi c2 t))) []), sorted_nil).
  assert (SP1 : sorted dp1) by (apply dict_add_sorted, SP).
  assert (E1 : h4 r = Some (ODict d1)) by (unfold h4, h3; rewrite set_other by congruence; rewrite set_other by congruence; apply set_same).
  assert (E2 : h4 c2 = Some (ODict d2)) by (unfold h4, h3; rewrite set_other by congruence; apply set_same).
  assert (EO : forall q, q <> r -> q <> c2 -> q <> p -> h4 q = dheap s q) by (intros q A B C; unfold h4, h3; rewrite !set_other by congruence; reflexivity).
  assert (KN : is_node t = false -> dict_get (bs "Kids") d = None) by (destruct t; [intros _; apply Sh|discriminate]).
  assert (KK : is_node t = false -> beq (bs "Kids") (key_of t) = false) by (unfold key_of; intros ->; reflexivity).
  assert (KR : forall k q, In k (kids_of t) -> In q (nrefs k) -> h4 q = dheap s q).
  { intros k q I Q. assert (IQ : In q (flat_map nrefs (kids_of t))) by (apply in_flat_map; eauto). apply EO.
    - intros ->. rewrite nrefs_eq in NT. apply NoDup_cons_iff in NT. tauto.
    - intros ->. assert (fst c2 < dnext s) by (apply (stored_below s false t c2 FR HT); rewrite nrefs_eq; right; exact IQ). cbn in *. lia.
    - intros ->. apply PT. rewrite nrefs_eq. right. exact IQ. }
  assert (K4 : Forall (stored h4 false) (kids_of t)) by (eapply stored_kids; [exact KR|exact K]).
  assert (B1 : built h4 (lo r t)).
  { split; [|split; [rewrite lo_kids; apply Forall_firstn, K4|apply (lo_ne h4); assumption]]. rewrite lo_ref. exists d1. split; [exact E1|]. split; [exact S1|]. apply lo_shape; [exact L| |].
    - unfold d1. rewrite dict_get_add, beq_refl by exact Sd. reflexivity.
    - intros N. unfold d1. rewrite dict_get_add, (KK N) by exact Sd. apply KN, N. }
  assert (B2 : built h4 (hi c2 t)).
  { split; [|split; [rewrite hi_kids; apply Forall_skipn, K4|apply (hi_ne h4); assumption]]. rewrite hi_ref. exists d2. split; [exact E2|]. split; [exact S2|]. apply hi_shape; [exact L| |].
    - unfold d2. cbn [dict_get]. rewrite beq_refl. reflexivity.
    - intros N. unfold d2. cbn [dict_get]. rewrite (KK N). reflexivity. }
  assert (ND2 : NoDup (nrefs (lo r t) ++ nrefs (hi c2 t))).
  { rewrite lo_hi_refs. rewrite nrefs_eq in NT. apply NoDup_cons_iff in NT as [NI NK]. rewrite <- (flat_firstn_skipn nrefs 33 (kids_of t)) in NK, NI.
    assert (CK : forall x, In x (flat_map nrefs (firstn 33 (kids_of t)) ++ flat_map nrefs (skipn 33 (kids_of t))) -> x <> c2).
    { intros x X ->. rewrite flat_firstn_skipn in X. assert (fst c2 < dnext s) by (apply (stored_below s false t c2 FR HT); rewrite nrefs_eq; right; exact X). cbn in *. lia. }
    apply NoDup_cons_iff. split.
    - rewrite in_app_iff in *. cbn [In]. intros [X|[X|X]]; [tauto|congruence|tauto].
    - apply NoDup_app_i; [apply NoDup_app_l in NK; exact NK| |].
      + apply NoDup_cons_iff. split; [|apply NoDup_app_r in NK; exact NK]. intros X. elim (CK c2); [apply in_app_iff; auto|reflexivity].
      + intros x X [<-|Y]; [elim (CK c2); [apply in_app_iff; auto|reflexivity]|]. eapply NoDup_app_d; eauto. }
  pose proof (NoDup_app_l _ _ ND2) as N1. pose proof (NoDup_app_r _ _ ND2) as N2.
  cbn [dnext]. pose proof (child_limits_ok (mk_doc h4 (dnext s + 1)) (lo r t) d1 B1 N1) as X1. rewrite lo_ref in X1. cbn [dheap dnext] in X1. destruct (X1 E1) as (l1 & CL1 & ST1). clear X1.
  replace (match Some (ptrs pre ++ ptr r :: ptr c2 :: ptrs post) with Some l => l | None => ptrs pre ++ ptr r :: ptrs post ++ [ref_obj r; ref_obj c2] end) with (ptrs pre ++ ptr r :: ptr c2 :: ptrs post) by reflexivity.
  rewrite CL1. cbn [bind]. set (h5 := set r (Some (ODict (dict_add (bs "Limits") l1 d1))) h4) in *.
  assert (K5 : forall k q, In k (kids_of t) -> In q (nrefs k) -> h5 q = h4 q).
  { intros k q I Q. unfold h5. apply set_other. intros ->. rewrite nrefs_eq in NT. apply NoDup_cons_iff in NT as [NI _]. apply NI, in_flat_map. eauto. }
  assert (B2' : built h5 (hi c2 t)).
  { destruct B2 as [(dd & A & B) [C D]]. split; [exists dd; split; [|exact B]|split; [|exact D]].
    - rewrite hi_ref in *. unfold h5. rewrite set_other by congruence. exact A.
    - rewrite hi_kids in *. eapply stored_kids; [|exact C]. intros k q I. apply K5. rewrite <- (firstn_skipn 33 (kids_of t)). apply in_app_iff. auto. }
  pose proof (child_limits_ok (mk_doc h5 (dnext s + 1)) (hi c2 t) d2 B2' N2) as X2. rewrite hi_ref in X2. cbn [dheap dnext] in X2.
  destruct X2 as (l2 & CL2 & ST2); [unfold h5; rewrite set_other by congruence; exact E2|]. rewrite CL2. cbn [bind]. set (h6 := set c2 (Some (ODict (dict_add (bs "Limits") l2 d2))) h5) in *.
  assert (ST1' : stored h6 false (lo r t)).
  { apply (stored_ext _ h5); [|exact ST1]. intros q Q. unfold h6. apply set_other. intros ->. eapply NoDup_app_d; [exact ND2|exact Q|]. pose proof (nref_in (hi c2 t)) as X. rewrite hi_ref in X. exact X. }
  assert (E6P : h6 p = Some (ODict dp1)) by (unfold h6, h5, h4; rewrite !set_other by congruence; apply set_same).
  assert (E6O : forall q, q <> r -> q <> c2 -> q <> p -> h6 q = dheap s q) by (intros q A B C; unfold h6, h5; rewrite !set_other by congruence; apply EO; assumption).
  assert (KP1 : dict_get (bs "Kids") dp1 = Some (OArr (ptrs (pre ++ [lo r t; hi c2 t] ++ post)))).
  { unfold dp1. rewrite dict_get_add, beq_refl by exact SP. rewrite !map_app. cbn [map app]. rewrite lo_ref, hi_ref. reflexivity. }
  assert (LP1 : dict_get (bs "Limits") dp1 = dict_get (bs "Limits") dp) by (unfold dp1; dg; reflexivity).
  assert (EN : flat_map entries [lo r t; hi c2 t] = entries t) by (cbn [flat_map]; rewrite app_nil_r; apply lo_hi_entries).
  assert (REFS : forall q, In q (flat_map nrefs [lo r t; hi c2 t]) -> In q (nrefs t) \/ q = c2).
  { intros q. cbn [flat_map]. rewrite app_nil_r, lo_hi_refs. rewrite nrefs_eq. fold r. cbn [In]. rewrite in_app_iff. cbn [In]. rewrite <- (flat_firstn_skipn nrefs 33 (kids_of t)), in_app_iff. intuition. }
  assert (HO6 : Forall (stored h6 false) (pre ++ post)).
  { eapply stored_kids; [|exact HO]. intros k q I Q. rewrite Forall_forall in HO. assert (IQ : In q (flat_map nrefs pre) \/ In q (flat_map nrefs post)).
    { apply in_app_iff in I as [I|I]; [left|right]; apply in_flat_map; eauto. }
    apply E6O.
    - intros ->. destruct IQ as [IQ|IQ]; [eapply NoDup_app_d; [exact ND|exact IQ|apply in_app_iff; left; apply nref_in]|]. apply NoDup_app_r in ND. eapply NoDup_app_d; [exact ND|apply nref_in|exact IQ].
    - intros ->. assert (fst c2 < dnext s) by (eapply (stored_below s false k); [exact FR|apply HO, I|exact Q]). cbn in *. lia.
    - intros ->. apply PI. rewrite !in_app_iff. tauto. }
  (* what is left is one more call of SetLimits *)
  assert (FIN : forall h7 dp', (forall q, q <> r -> q <> p -> h7 q = h6 q) -> stored h7 false (lo r t) -> stored h7 false (hi c2 t) ->
    h7 p = Some (ODict dp') -> sorted dp' -> dict_get (bs "Kids") dp' = Some (OArr (ptrs (pre ++ [lo r t; hi c2 t] ++ post))) ->
    (dict_get (bs "Limits") dp' = dict_get (bs "Limits") dp \/ above = true /\ limits false (flat_map entries (pre ++ [lo r t; hi c2 t] ++ post)) dp') ->
    after s (mk_doc h7 (dnext s + 1)) t [lo r t; hi c2 t] p dp above pre post).
  { intros h7 dp' H7 A1 A2 E7 S7 K7 L7. split; [|cbn [dheap dnext]; split; [lia|]].
    - intros q Q. cbn [dheap dnext] in *. rewrite H7 by (intros ->; lia). rewrite E6O; [apply FR; lia|intros ->; lia|intros ->; cbn in Q; lia|intros ->; lia].
    - split; [constructor; [exact A1|constructor; [exact A2|constructor]]|]. split; [discriminate|]. split; [cbn [flat_map]; rewrite app_nil_r; exact ND2|]. split.
      + intros q Q. apply REFS in Q as [Q| ->]; [auto|right; cbn; lia].
      + split; [|split; [intros x [<-|[<-|[]]]; [apply lo_levels|apply hi_levels]|exists dp'; auto]].
        intros q A B C. assert (q <> r) by (intros ->; apply A, nref_in). rewrite H7 by assumption. apply E6O; [assumption|intros ->; cbn in C; lia|assumption]. }
  destruct (is_node t) eqn:IN.
  - (* the node has kids: its own limits once more *)
    set (dr := dict_add (bs "Limits") l1 d1) in *. assert (E6R : h6 r = Some (ODict dr)) by (unfold h6, h5; rewrite set_other by congruence; apply set_same).
    assert (B1' : built h6 (lo r t)).
    { pose proof ST1' as X. rewrite stored_iff in X. destruct X as [(dd & A & B & C & _) D]. split; [exists dd; auto|]. split; [exact D|]. apply (stored_entries h6), ST1'. }
    pose proof (set_limits_ok h6 (lo r t) true dr B1') as X. rewrite lo_ref in X. destruct (X E6R) as (l3 & SL & LI). clear X. rewrite lo_node, IN in SL.
    unfold set_limits_of. cbn [dheap dnext]. rewrite SL. cbn [bind]. eexists _, [lo r t; hi c2 t]. split; [reflexivity|]. split; [exact EN|]. apply (FIN _ dp1).
    + intros q A B. apply set_other, A.
    + rewrite stored_iff. split.
      * exists (dict_add (bs "Limits") l3 dr). unfold own. rewrite lo_ref. split; [apply set_same|]. assert (SR : sorted dr) by (apply dict_add_sorted, S1). split; [apply dict_add_sorted, SR|].
        assert (SHR : shape (lo r t) dr). { pose proof ST1' as X. rewrite stored_iff in X. destruct X as [(dd & A & _ & C & _) _]. rewrite lo_ref in A. assert (dd = dr) as <- by congruence. exact C. }
        split; [destruct (lo r t); cbn [shape] in *; dg; exact SHR|]. apply LI. dg. reflexivity.
      * pose proof ST1' as X. rewrite stored_iff in X. destruct X as [_ X]. eapply stored_kids; [|exact X]. intros k q I Q. apply set_other. intros ->. rewrite nrefs_eq in N1. apply NoDup_cons_iff in N1 as [NI _].
        rewrite lo_ref in NI. apply NI, in_flat_map. eauto.
    + apply (stored_ext _ h6); [|exact ST2]. intros q Q. apply set_other. intros ->. pose proof (nref_in (lo r t)) as X. rewrite lo_ref in X. eapply NoDup_app_d; [exact ND2|exact X|exact Q].
    + rewrite set_other by congruence. exact E6P.
    + exact SP1.
    + exact KP1.
    + left. exact LP1.
  - (* a leaf: the limits of the parent *)
    set (T := NNode p (pre ++ [lo r t; hi c2 t] ++ post)).
    assert (HKS : Forall (stored h6 false) (pre ++ [lo r t; hi c2 t] ++ post)).
    { apply Forall_app in HO6 as [A B]. apply Forall_app. split; [exact A|]. apply Forall_app. split; [|exact B]. constructor; [exact ST1'|]. constructor; [exact ST2|constructor]. }
    assert (BT : built h6 T).
    { split; [exists dp1; split; [exact E6P|]; split; [exact SP1|]; split; [destruct pre; discriminate|exact KP1]|]. split; [exact HKS|]. cbn [T entries]. apply (flat_ne h6); [exact HKS|destruct pre; discriminate]. }
    destruct (set_limits_ok h6 T above dp1 BT E6P) as (l3 & SL & LI). cbn [T nref is_node entries] in SL, LI. unfold set_limits_of. cbn [dheap dnext]. rewrite SL. cbn [bind].
    eexists _, [lo r t; hi c2 t]. split; [reflexivity|]. split; [exact EN|].
    assert (P12 : forall q, In q (nrefs (lo r t)) \/ In q (nrefs (hi c2 t)) -> q <> p).
    { intros q Q ->. destruct (REFS p) as [X|X]; [cbn [flat_map]; rewrite app_nil_r; apply in_app_iff; exact Q|exact (PT X)|congruence]. }
    destruct above.
    + apply (FIN _ (dict_add (bs "Limits") l3 dp1)).
      * intros q A B. apply set_other, B.
      * apply (stored_ext _ h6); [|exact ST1']. intros q Q. apply set_other, P12. auto.
      * apply (stored_ext _ h6); [|exact ST2]. intros q Q. apply set_other, P12. auto.
      * apply set_same.
      * apply dict_add_sorted, SP1.
      * dg. exact KP1.
      * right. split; [reflexivity|]. apply LI. dg. reflexivity.
    + apply (FIN _ dp1); auto.
Qed.

(** ** The root *)
Lemma erase_in k x : forall d : dict, In x (erase_key k d) -> In x d.
Proof. induction d as [|[a v] d IH]; cbn [erase_key]; [auto|]. destruct (beq a k); cbn [In]; tauto. Qed.
Lemma erase_sorted k (d : dict) : sorted d -> sorted (erase_key k d).
Proof.
  induction 1 as [|[a v] d S1 IH F]; cbn [erase_key]; [constructor|]. destruct (beq a k); [exact S1|]. constructor; [exact IH|].
  rewrite Forall_forall in *. intros x X. apply F, (erase_in k), X.
Qed.
Lemma get_erase k q : forall d : dict, beq q k = false -> dict_get q (erase_key k d) = dict_get q d.
Proof.
  induction d as [|[a v] d IH]; intros N; [reflexivity|]. cbn [erase_key]. destruct (beq a k) eqn:E; cbn [dict_get]; [|rewrite IH by exact N; reflexivity].
  apply beq_eq in E. subst a. destruct (beq k q) eqn:X; [apply beq_eq in X; subst; rewrite beq_refl in N; discriminate|]. rewrite ?N, ?X. reflexivity.
Qed.

Definition after_root (s s' : doc) (t t' : ntree) : Prop :=
  fresh s' /\ dnext s <= dnext s' /\ stored (dheap s') true t' /\ NoDup (nrefs t') /\ nref t' = nref t /\
  (forall q, In q (nrefs t') -> In q (nrefs t) \/ dnext s <= fst q) /\
  (forall q, ~ In q (nrefs t) -> fst q < dnext s -> dheap s' q = dheap s q) /\ (levels t' <= S (levels t))%nat.
Lemma rebalance_root s t : fresh s -> stored (dheap s) true t -> NoDup (nrefs t) ->
  exists s' t', rebalance s (nref t) (is_node t) None = Ok s' /\ entries t' = entries t /\ after_root s s' t t'.
Proof.
  intros FR HT NT. pose proof HT as HT'. rewrite stored_iff in HT'. destruct HT' as [(d & E & Sd & Sh & Li) K].
  unfold rebalance. rewrite (dict_at_val _ _ d E). cbn [bind]. change (bs (if is_node t then "Kids" else "Names")) with (key_of t).
  rewrite (direct_array _ _ d _ (content_get t d Sh)). cbn [bind]. change (if is_node t then max_kids else (max_kids * 2)%nat) with (len_limit (is_node t)). rewrite split_len.
  destruct (Nat.ltb_spec 65 (size t)) as [L|L].
  2:{ exists s, t. split; [reflexivity|]. split; [reflexivity|]. split; [exact FR|]. split; [lia|]. split; [exact HT|]. split; [exact NT|]. split; [reflexivity|]. split; [auto|]. split; [auto|lia]. }
  set (r := nref t) in *. unfold new_object. cbn [dheap dnext]. set (c1 := (dnext s, 0)). set (c2 := (dnext s + 1, 0)).
  assert (RL : fst r < dnext s) by (apply (stored_below s true t r FR HT), nref_in).
  assert (C12 : c1 <> c2) by (intros X; apply (f_equal fst) in X; cbn in X; lia).
  assert (RC1 : r <> c1) by (intros X; rewrite X in RL; cbn in RL; lia). assert (RC2 : r <> c2) by (intros X; rewrite X in RL; cbn in RL; lia).
  rewrite (dict_at_val _ r d) by (rewrite set_other by exact RC1; exact E). cbn [bind].
  rewrite (lo_content t c1), (hi_content t c2).
  rewrite (set_key_val _ c1 (key_of t) _ []) by (rewrite !set_other by congruence; apply set_same). cbn [bind].
  rewrite (set_key_val _ c2 (key_of t) _ []) by (rewrite set_other by congruence; apply set_same). cbn [bind].
  set (de := erase_key (bs "Names") d). assert (SE : sorted de) by (apply erase_sorted, Sd).
  rewrite (set_key_val _ r (bs "Kids") _ de) by (rewrite !set_other by congruence; apply set_same). cbn [bind].
  change (dict_add (key_of t) (OArr (content (hi c2 t))) []) with [(key_of t, OArr (content (hi c2 t)))].
  change (dict_add (key_of t) (OArr (content (lo c1 t))) []) with [(key_of t, OArr (content (lo c1 t)))].
  set (d1 := [(key_of t, OArr (content (lo c1 t)))]). set (d2 := [(key_of t, OArr (content (hi c2 t)))]). set (dr := dict_add (bs "Kids") (OArr [ref_obj c1; ref_obj c2]) de).
  match goal with |- context [child_limits (mk_doc ?h _) c1] => set (h4 := h) end.
  assert (S1 : sorted d1) by (apply (dict_add_sorted (key_of t) (OArr (content (lo c1 t))) []), sorted_nil).
  assert (S2 : sorted d2) by (apply (dict_add_sorted (key_of t) (OArr (content (hi c2 t))) []), sorted_nil).
  assert (SR : sorted dr) by (apply dict_add_sorted, SE).
  assert (E1 : h4 c1 = Some (ODict d1)) by (unfold h4; rewrite set_other by congruence; rewrite set_other by congruence; apply set_same).
  assert (E2 : h4 c2 = Some (ODict d2)) by (unfold h4; rewrite set_other by congruence; apply set_same).
  assert (ER : h4 r = Some (ODict dr)) by apply set_same.
  assert (EO : forall q, q <> r -> q <> c1 -> q <> c2 -> h4 q = dheap s q) by (intros q A B C; unfold h4; rewrite !set_other by congruence; reflexivity).
  assert (KK : is_node t = false -> beq (bs "Kids") (key_of t) = false) by (unfold key_of; intros ->; reflexivity).
  rewrite nrefs_eq in NT. apply NoDup_cons_iff in NT as [NI NK]. fold r in NI.
  assert (CK : forall x, In x (flat_map nrefs (kids_of t)) -> x <> c1 /\ x <> c2 /\ x <> r).
  { intros x X. assert (XL : fst x < dnext s) by (apply (stored_below s true t x FR HT); rewrite nrefs_eq; right; exact X).
    split; [intros ->; cbn in XL; lia|]. split; [intros ->; cbn in XL; lia|]. intros ->. exact (NI X). }
  assert (K4 : Forall (stored h4 false) (kids_of t)).
  { eapply stored_kids; [|exact K]. intros k q I Q. destruct (CK q) as (A & B & C); [apply in_flat_map; eauto|]. apply EO; assumption. }
  assert (B1 : built h4 (lo c1 t)).
  { split; [|split; [rewrite lo_kids; apply Forall_firstn, K4|apply (lo_ne h4); assumption]]. rewrite lo_ref. exists d1. split; [exact E1|]. split; [exact S1|].
    apply lo_shape; [exact L|unfold d1; cbn [dict_get]; rewrite beq_refl; reflexivity|]. intros N. unfold d1. cbn [dict_get]. rewrite (KK N). reflexivity. }
  assert (B2 : built h4 (hi c2 t)).
  { split; [|split; [rewrite hi_kids; apply Forall_skipn, K4|apply (hi_ne h4); assumption]]. rewrite hi_ref. exists d2. split; [exact E2|]. split; [exact S2|].
    apply hi_shape; [exact L|unfold d2; cbn [dict_get]; rewrite beq_refl; reflexivity|]. intros N. unfold d2. cbn [dict_get]. rewrite (KK N). reflexivity. }
  assert (ND2 : NoDup (nrefs (lo c1 t) ++ nrefs (hi c2 t))).
  { rewrite lo_hi_refs. pose proof NK as NK'. rewrite <- (flat_firstn_skipn nrefs 33 (kids_of t)) in NK'.
    assert (CK' : forall x, In x (flat_map nrefs (firstn 33 (kids_of t))) \/ In x (flat_map nrefs (skipn 33 (kids_of t))) -> x <> c1 /\ x <> c2 /\ x <> r).
    { intros x X. apply CK. rewrite <- (flat_firstn_skipn nrefs 33 (kids_of t)). apply in_app_iff, X. }
    apply NoDup_cons_iff. split.
    - rewrite in_app_iff. cbn [In]. intros [X|[X|X]]; [elim (proj1 (CK' c1 (or_introl X))); reflexivity|congruence|elim (proj1 (CK' c1 (or_intror X))); reflexivity].
    - apply NoDup_app_i; [apply NoDup_app_l in NK'; exact NK'| |].
      + apply NoDup_cons_iff. split; [|apply NoDup_app_r in NK'; exact NK']. intros X. elim (proj1 (proj2 (CK' c2 (or_intror X)))). reflexivity.
      + intros x X [<-|Y]; [elim (proj1 (proj2 (CK' c2 (or_introl X)))); reflexivity|]. eapply NoDup_app_d; eauto. }
  assert (REFS : forall q, In q (nrefs (lo c1 t)) \/ In q (nrefs (hi c2 t)) -> q = c1 \/ q = c2 \/ In q (flat_map nrefs (kids_of t))).
  { intros q. rewrite <- in_app_iff, lo_hi_refs. cbn [In]. rewrite in_app_iff. cbn [In]. rewrite <- (flat_firstn_skipn nrefs 33 (kids_of t)), in_app_iff. intuition. }
  pose proof (NoDup_app_l _ _ ND2) as N1. pose proof (NoDup_app_r _ _ ND2) as N2.
  pose proof (child_limits_ok (mk_doc h4 (dnext s + 1 + 1)) (lo c1 t) d1 B1 N1) as X1. rewrite lo_ref in X1. cbn [dheap dnext] in X1. destruct (X1 E1) as (l1 & CL1 & ST1). clear X1.
  rewrite CL1. cbn [bind]. set (h5 := set c1 (Some (ODict (dict_add (bs "Limits") l1 d1))) h4) in *.
  assert (B2' : built h5 (hi c2 t)).
  { destruct B2 as [(dd & A & B) [C D]]. split; [exists dd; split; [|exact B]|split; [|exact D]].
    - rewrite hi_ref in *. unfold h5. rewrite set_other by congruence. exact A.
    - rewrite hi_kids in *. eapply stored_kids; [|exact C]. intros k q I Q. unfold h5. apply set_other. apply CK. apply in_flat_map. exists k. split; [|exact Q].
      rewrite <- (firstn_skipn 33 (kids_of t)). apply in_app_iff. auto. }
  pose proof (child_limits_ok (mk_doc h5 (dnext s + 1 + 1)) (hi c2 t) d2 B2' N2) as X2. rewrite hi_ref in X2. cbn [dheap dnext] in X2.
  destruct X2 as (l2 & CL2 & ST2); [unfold h5; rewrite set_other by congruence; exact E2|]. rewrite CL2. cbn [bind]. set (h6 := set c2 (Some (ODict (dict_add (bs "Limits") l2 d2))) h5) in *.
  assert (ST1' : stored h6 false (lo c1 t)).
  { apply (stored_ext _ h5); [|exact ST1]. intros q Q. unfold h6. apply set_other. intros ->. pose proof (nref_in (hi c2 t)) as X. rewrite hi_ref in X. eapply NoDup_app_d; [exact ND2|exact Q|exact X]. }
  assert (E6R : h6 r = Some (ODict dr)) by (unfold h6, h5; rewrite !set_other by congruence; exact ER).
  set (T := NNode r [lo c1 t; hi c2 t]).
  assert (KR : dict_get (bs "Kids") dr = Some (OArr (ptrs [lo c1 t; hi c2 t]))).
  { unfold dr. rewrite dict_get_add, beq_refl by exact SE. cbn [map]. rewrite lo_ref, hi_ref. reflexivity. }
  assert (HKS : Forall (stored h6 false) [lo c1 t; hi c2 t]) by (constructor; [exact ST1'|constructor; [exact ST2|constructor]]).
  assert (EN : entries T = entries t) by (cbn [T entries flat_map]; rewrite app_nil_r; apply lo_hi_entries).
  assert (BT : built h6 T).
  { split; [exists dr; split; [exact E6R|]; split; [exact SR|]; split; [discriminate|exact KR]|]. split; [exact HKS|]. rewrite EN, <- (lo_hi_entries c1 c2 t). intros X. apply app_eq_nil in X as [X _].
    revert X. apply (stored_entries h6), ST1'. }
  destruct (set_limits_ok h6 T false dr BT E6R) as (l3 & SL & _). cbn [T nref is_node] in SL. unfold set_limits_of. cbn [dheap dnext]. rewrite SL. cbn [bind].
  eexists _, T. split; [reflexivity|]. split; [exact EN|]. split; [|cbn [dheap dnext]; split; [lia|]].
  - intros q Q. cbn [dheap dnext] in *. unfold h6, h5. rewrite !set_other by (intros ->; cbn in Q; lia). rewrite EO; [apply FR; lia|intros ->; lia|intros ->; cbn in Q; lia|intros ->; cbn in Q; lia].
  - split; [|split; [|split; [reflexivity|split; [|split]]]].
    + rewrite stored_iff. split; [|exact HKS]. exists dr. split; [exact E6R|]. split; [exact SR|]. split; [split; [discriminate|exact KR]|]. cbn [limits]. unfold dr. dg. unfold de. rewrite get_erase by reflexivity. exact Li.
    + rewrite nrefs_eq. cbn [T kids_of nref flat_map]. rewrite app_nil_r. apply NoDup_cons_iff. split; [|exact ND2]. intros X. apply in_app_iff in X. apply REFS in X as [X|[X|X]]; [congruence|congruence|exact (NI X)].
    + intros q. rewrite nrefs_eq. cbn [T kids_of nref flat_map]. rewrite app_nil_r. intros [<-|X]; [left; apply nref_in|]. apply in_app_iff in X. apply REFS in X as [->|[->|X]]; [right; cbn; lia|right; cbn; lia|].
      left. rewrite nrefs_eq. right. exact X.
    + intros q A B. unfold h6, h5. rewrite !set_other by (intros ->; cbn in B; lia). apply EO; [intros ->; apply A, nref_in|intros ->; cbn in B; lia|intros ->; cbn in B; lia].
    + apply levels_bound. intros k [<-|[<-|[]]]; [apply lo_levels|apply hi_levels].
Qed.
