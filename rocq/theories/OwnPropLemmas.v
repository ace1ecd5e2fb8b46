(** The properties of containers and ownership, proved; [OwnProps.v] states them once more. *)
From Coq Require Import String.
From Verif Require Import Base TokModel DictProofs ObjProofs OwnModel OwnSpec OwnProofs.
Local Open Scope Z_scope.

(** ** C34 *)
Lemma dict_map {A} (h : list (dop A)) k x : get_key k (played h) = x <-> current k h x.
Proof. apply current_iff. Qed.
Lemma dict_has {A} (h : list (dop A)) k : has_key k (played h) = true <-> exists v, current k h (Some v).
Proof.
  unfold has_key. fold (get_key k (played h)). split.
  - destruct (get_key k (played h)) as [v|] eqn:E; [|discriminate]. intros _. exists v. apply current_iff, E.
  - intros [v C]. apply current_iff in C. rewrite C. reflexivity.
Qed.
Lemma dict_remove {A} (h : list (dop A)) k : fst (remove_key k (played h)) = true <-> exists v, current k h (Some v).
Proof. rewrite <- dict_has. unfold remove_key. destruct (has_key k (played h)); cbn; split; auto. Qed.
Lemma dict_once {A} (h : list (dop A)) : NoDup (map fst (played h)).
Proof. apply sorted_nodup, played_sorted. Qed.

(** ** C35 *)
Lemma equal_partial a b : no_null a -> (var_eq a b = true <-> same_value a b).
Proof. intro N. apply var_eq_same, N. Qed.
Lemma same_no_null a : forall b, same_value a b -> no_null a -> no_null b.
Proof.
  induction a as [|x|z|m k0|nm|hx x|n g|l IH|d0 IH] using obj_ind2; intros b S N; inversion S as [| | |? ? ? ? E| | | |? ? F|? ? F]; subst; try (apply nn_other; exact Logic.I).
  - exact N.
  - inversion N as [? K|? K|? K]; subst; [|destruct K]. apply nn_arr. clear N S. revert y F.
    induction IH as [|x l HX _ IHl]; intros y F; inversion F; subst; constructor; [eapply HX; eauto; exact (Forall_inv K)|]. apply IHl; [exact (Forall_inv_tail K)|assumption].
  - inversion N as [? K|? K|? K]; subst; [|destruct K]. apply nn_dict. clear N S. revert y F.
    induction IH as [|x l HX _ IHl]; intros y F; inversion F as [|? ? ? ? [K1 K2]]; subst; constructor; [eapply HX; eauto; exact (Forall_inv K)|].
    apply IHl; [exact (Forall_inv_tail K)|assumption].
Qed.
Lemma equivalence_partial a b c : no_null a -> no_null b ->
  var_eq a a = true /\ var_eq a b = var_eq b a /\ (var_eq a b = true -> var_eq b c = true -> var_eq a c = true).
Proof.
  intros A B. split; [apply var_eq_same; [exact A|apply same_refl]|]. split.
  - apply Bool.eq_true_iff_eq. rewrite (var_eq_same a A), (var_eq_same b B). split; apply same_sym.
  - rewrite (var_eq_same a A b), (var_eq_same b B c), (var_eq_same a A c). apply same_trans.
Qed.
Lemma indirect_equal a b ra : c_ref a = Some ra -> c_addr a <> c_addr b -> (obj_eq a b = true <-> c_doc a = c_doc b /\ c_ref b = Some ra).
Proof.
  intros R N. unfold obj_eq. apply Z.eqb_neq in N. rewrite N, R. rewrite andb_true_iff, Z.eqb_eq. destruct ra as [n g].
  destruct (c_ref b) as [[n' g']|]; cbn.
  - rewrite andb_true_iff, !Z.eqb_eq. split; [intros [-> [-> ->]]; auto|intros [-> E]; injection E as -> ->; auto].
  - split; [intros [_ K]; discriminate K|intros [_ K]; discriminate K].
Qed.
Lemma null_refuted : exists a b, var_eq a b = true /\ var_eq b a = false /\ ~ same_value a b.
Proof. exists ONull, (ONum 5). split; [reflexivity|]. split; [reflexivity|]. intro H. inversion H. Qed.
Lemma not_equal_refuted : exists a b, c_ref a = None /\ c_ref b = None /\ same_value (c_val a) (c_val b) /\ obj_eq a b = true /\ obj_ne a b = true.
Proof. exists (mk_cobj 1 0 None (ONum 5)), (mk_cobj 2 0 None (ONum 5)). repeat (split; [try reflexivity; constructor|]). reflexivity. Qed.
Lemma mixed_refuted : exists a b, same_value (c_val a) (c_val b) /\ obj_eq a b = false /\ obj_eq b a = true.
Proof. exists (mk_cobj 1 1 (Some (7, 0)) (ONum 5)), (mk_cobj 2 1 None (ONum 5)). split; [constructor|]. split; reflexivity. Qed.

(** ** C36 *)
Lemma dirty_partial s c : history s c -> c = true -> snd s = true.
Proof. intros H. apply (history_dirty s c H). Qed.
Lemma growth_refuted : exists n l s s', rooted n /\ runs l (n, false) = Some s /\ runs [None; Some ([AtIdx 0], OpSet (ONum 7))] s = Some s' /\
  content (fst s') <> content (fst s) /\ snd s' = false.
Proof.
  exists (Arr false true true 0 []), [Some ([], OpAdd (Leaf false false (ONum 1))); Some ([], OpAdd (Leaf false false (ONum 2)))].
  eexists. eexists. split; [repeat constructor|]. split; [reflexivity|]. split; [reflexivity|]. split; [discriminate|reflexivity].
Qed.
Lemma resize_refuted : exists n s', rooted n /\ runs [Some ([], OpResize 1)] (n, false) = Some s' /\ content (fst s') <> content n /\ snd s' = false.
Proof. exists (Arr false true true 0 []). eexists. split; [repeat constructor|]. split; [reflexivity|]. split; [discriminate|reflexivity]. Qed.
Lemma insert_refuted : exists n l s s', rooted n /\ runs l (n, false) = Some s /\ runs [None; Some ([AtIdx 2], OpSet (ONum 7))] s = Some s' /\
  content (fst s') <> content (fst s) /\ snd s' = false.
Proof.
  exists (Arr false true true 8 []), [Some ([], OpAdd (Leaf false false (ONum 1))); Some ([], OpAdd (Leaf false false (ONum 2))); Some ([], OpInsert 1 (Leaf false false (ONum 3)))].
  eexists. eexists. split; [repeat constructor|]. split; [reflexivity|]. split; [reflexivity|]. split; [discriminate|reflexivity].
Qed.

(** ** C62 *)
Lemma inherited_partial look k d r : (exists fuel, find_key_parent fuel look k d = Ok r) <-> inherits look k d r.
Proof.
  split; [intros [f H]; eapply found_inherits; eauto|]. intro H. apply inherits_found in H as [n H]. exists n. apply H. lia.
Qed.
Lemma inherited_stable look k d r : inherits look k d r -> exists n, forall fuel, (n <= fuel)%nat -> find_key_parent fuel look k d = Ok r.
Proof. apply inherits_found. Qed.
Definition own_parent : list (list Z * obj) := [(bs "Parent", ORef 1 0)].
Lemma inherited_refuted : exists look d, look (1, 0) = Some (ODict d) /\ forall fuel, find_key_parent fuel look (bs "Rotate") d = Fuel.
Proof.
  exists (fun _ => Some (ODict own_parent)), own_parent. split; [reflexivity|]. induction fuel as [|f IH]; [reflexivity|]. exact IH.
Qed.

(** ** C72 *)
Lemma step_eqb_eq x y : step_eqb x y = true <-> x = y.
Proof.
  destruct x, y; cbn; try (split; discriminate).
  - rewrite Nat.eqb_eq. split; congruence.
  - split; [intro H; apply beq_eq in H; congruence|intro H; injection H as ->; apply beq_refl].
Qed.
Lemma prefix_app p : forall q, prefix p q = true <-> exists r, q = p ++ r.
Proof.
  induction p as [|x p IH]; intro q; cbn; [split; eauto|]. destruct q as [|y q]; [split; [discriminate|intros [r K]; discriminate K]|].
  rewrite andb_true_iff, step_eqb_eq, IH. split; [intros [-> [r ->]]; eauto|intros [r K]; injection K as -> ->; eauto].
Qed.
Lemma apart_not p q : apart p q -> prefix p q = false.
Proof.
  intros (c & x & y & p' & q' & -> & -> & N). destruct (prefix _ _) eqn:E; [|reflexivity]. apply prefix_app in E as [r E].
  rewrite <- app_assoc in E. apply app_inv_head in E. cbn in E. injection E as E _. congruence.
Qed.
Lemma apart_sym p q : apart p q -> apart q p.
Proof. intros (c & x & y & p' & q' & E & F & N). exists c, y, x, q', p'. auto. Qed.
Lemma upd_same {A} i (x y : A) l : nth_error l i = Some y -> nth_error (upd i x l) i = Some x.
Proof. revert i. induction l as [|z l IH]; intros [|i] H; cbn in *; try discriminate H; [reflexivity|apply IH, H]. Qed.
Lemma upd_other {A} i j (x : A) l : i <> j -> nth_error (upd i x l) j = nth_error l j.
Proof. revert i j. induction l as [|z l IH]; intros [|i] [|j] N; cbn; try reflexivity; try congruence. apply IH. congruence. Qed.
Lemma upd_key_same {A} k (x y : A) m : get_key k m = Some y -> get_key k (upd_key k x m) = Some x.
Proof.
  unfold get_key. induction m as [|[k' v] m IH]; cbn; [discriminate|]. destruct (beq k k') eqn:E; cbn; rewrite E; [reflexivity|exact IH].
Qed.
Lemma upd_key_other {A} k q (x : A) m : k <> q -> get_key q (upd_key k x m) = get_key q m.
Proof.
  unfold get_key. intro N. induction m as [|[k' v] m IH]; cbn; [reflexivity|]. destruct (beq k k') eqn:E; cbn.
  - apply beq_eq in E. subst k'. destruct (beq q k) eqn:Q; [apply beq_eq in Q; congruence|reflexivity].
  - rewrite IH. reflexivity.
Qed.
Lemma set_get p y : forall n x, get_at p n = Some x -> get_at p (set_at p y n) = Some y.
Proof.
  induction p as [|[i|k] r IH]; intros n x H; cbn [get_at set_at] in *; [reflexivity| |].
  - destruct n as [|pa d w c l|]; try discriminate H. destruct (nth_error l i) as [z|] eqn:G; [|discriminate H].
    rewrite (upd_same _ _ z) by exact G. eapply IH, H.
  - destruct n as [| |pa d w m]; try discriminate H. destruct (get_key k m) as [z|] eqn:G; [|discriminate H].
    rewrite (upd_key_same _ _ z) by exact G. eapply IH, H.
Qed.
Lemma set_get_apart p y q : apart p q -> forall n, get_at q (set_at p y n) = get_at q n.
Proof.
  intros (c & u & v & p' & q' & -> & -> & N). induction c as [|[i|k] c IH]; intro n; cbn [app].
  - destruct u as [i|k], v as [j|l]; cbn [get_at set_at]; destruct n as [|pa d w cc ll|pa d w m]; try reflexivity.
    + destruct (nth_error ll i); [|reflexivity]. rewrite upd_other by congruence. reflexivity.
    + destruct (nth_error ll i); reflexivity.
    + destruct (get_key k m); reflexivity.
    + destruct (get_key k m); [|reflexivity]. rewrite upd_key_other by congruence. reflexivity.
  - cbn [get_at set_at]. destruct n as [|pa d w cc ll|]; try reflexivity. destruct (nth_error ll i) as [z|] eqn:G; [|rewrite G; reflexivity].
    rewrite (upd_same _ _ z) by exact G. apply IH.
  - cbn [get_at set_at]. destruct n as [| |pa d w m]; try reflexivity. destruct (get_key k m) as [z|] eqn:G; [|rewrite G; reflexivity].
    rewrite (upd_key_same _ _ z) by exact G. apply IH.
Qed.
Lemma within_partial tgt src n t s : get_at tgt n = Some t -> get_at src n = Some s -> apart tgt src ->
  exists n' t', assign_within tgt src n = Ok n' /\ get_at tgt n' = Some t' /\ content t' = content s /\
    (forall p, apart tgt p -> get_at p n' = get_at p n).
Proof.
  intros T S A. unfold assign_within. rewrite T, S, (apart_not _ _ A), (apart_not _ _ (apart_sym _ _ A)).
  eexists. exists (assign t s). split; [reflexivity|]. split; [eapply set_get, T|]. split; [apply content_assign|]. intros p P. apply set_get_apart, P.
Qed.
Lemma within_refuted : exists n t, get_at [AtIdx 0] n = Some t /\ assign_within [AtIdx 0] [AtIdx 0] n = UB.
Proof. exists (Arr false true true 1 [Leaf true true (OName (bs "A"))]). eexists. split; reflexivity. Qed.
Lemma within_child_refuted tgt r n t s : get_at tgt n = Some t -> get_at (tgt ++ r) n = Some s -> r <> [] -> assign_within tgt (tgt ++ r) n = UB.
Proof.
  intros T S R. unfold assign_within. rewrite T, S. replace (prefix tgt (tgt ++ r)) with true by (symmetry; apply prefix_app; eauto).
  assert (K : get_at r t = Some s).
  { clear R. revert n T S. induction tgt as [|[i|k] p IH]; intros n T S; cbn [app get_at] in *; [injection T as ->; exact S| |];
      destruct n; try discriminate T.
    - destruct (nth_error l i); [eapply IH; eauto|discriminate T].
    - destruct (get_key k d); [eapply IH; eauto|discriminate T]. }
  destruct r as [|[i|k] r]; [congruence| |]; destruct t; try discriminate K; reflexivity.
Qed.
Lemma within_parent_refuted src r n t s : get_at (src ++ r) n = Some t -> get_at src n = Some s -> r <> [] -> assign_within (src ++ r) src n = UB.
Proof.
  intros T S R. unfold assign_within. rewrite T, S. replace (prefix src (src ++ r)) with true by (symmetry; apply prefix_app; eauto).
  destruct (prefix (src ++ r) src) eqn:E; [|reflexivity]. apply prefix_app in E as [q E]. apply (f_equal (@length _)) in E.
  rewrite !app_length in E. destruct r; [congruence|cbn in E; lia].
Qed.

(** ** C73 *)
Lemma get_linked p : forall n x, rooted n -> get_at p n = Some x -> rooted x /\ doc x = doc n.
Proof.
  induction p as [|[i|k] r IH]; intros n x R H; cbn [get_at] in H; [injection H as ->; auto| |].
  - destruct n as [|pa d w c l|]; try discriminate H. apply rooted_arr in R as [-> R]. destruct (nth_error l i) as [z|] eqn:G; [|discriminate H].
    apply nth_error_In in G. rewrite Forall_forall in R. destruct (linked_flags _ _ (R _ G)) as (_ & D & X). cbn [doc]. rewrite <- D. apply IH; assumption.
  - destruct n as [| |pa d w m]; try discriminate H. apply rooted_dic in R as [-> R]. destruct (get_key k m) as [z|] eqn:G; [|discriminate H].
    destruct (linked_flags _ _ (get_key_Forall _ _ _ _ R G)) as (_ & D & X). cbn [doc]. rewrite <- D. apply IH; assumption.
Qed.
Lemma get_key_map {A B} (f : A -> B) k (m : list (list Z * A)) : get_key k (map (fun kv => (fst kv, f (snd kv))) m) = option_map f (get_key k m).
Proof. unfold get_key. induction m as [|[k' v] m IH]; cbn; [reflexivity|]. destruct (beq k k'); [reflexivity|exact IH]. Qed.
Lemma resolve_partial look n p pa dx w m k d : rooted n -> doc n = true -> get_at p n = Some (Dic pa dx w m) -> content (Dic pa dx w m) = ODict d ->
  (forall v, entry look d k v -> node_find look k (Dic pa dx w m) = Ok (Some v)) /\
  ((forall v, ~ entry look d k v) -> node_find look k (Dic pa dx w m) = Ok None).
Proof.
  intros R D G C. destruct (get_linked p n _ R G) as [RX DX]. rewrite D in DX. cbn [doc] in DX. subst dx.
  assert (E : node_find look k (Dic pa true w m) = Ok (dict_find look k d)).
  { apply rooted_dic in RX as [-> _]. cbn [content] in C. injection C as <-. unfold node_find, dict_find. rewrite get_key_map.
    destruct (get_key k m) as [[pa' d' o| |]|]; cbn; try reflexivity. destruct o; reflexivity. }
  rewrite E. split.
  - intros v V. apply dict_find_entry in V. congruence.
  - intro N. apply (proj2 (find_none look d k)) in N. congruence.
Qed.
Definition ref_dict : node := Dic false false true [(bs "Next", Leaf true false (ORef 4 0))].
Lemma resolve_refuted : exists n l s x look v, rooted n /\ doc n = true /\ runs l (n, false) = Some s /\ get_at [AtIdx 0] (fst s) = Some x /\
  (exists d, content x = ODict d /\ entry look d (bs "Next") v) /\ node_find look (bs "Next") x = Err EInvalidHandle.
Proof.
  exists (Arr false true true 0 []), [Some ([], OpAdd ref_dict); Some ([], OpAdd (Leaf false false (ONum 2)))].
  eexists. eexists. exists (fun _ => Some (ONum 9)), (ONum 9). split; [repeat constructor|]. split; [reflexivity|]. split; [reflexivity|]. split; [reflexivity|].
  split; [|reflexivity]. eexists. split; [reflexivity|]. exists [], (ORef 4 0), []. split; [reflexivity|]. split; [intros []|reflexivity].
Qed.

(** ** C74 *)
Lemma array_add x n n' b : run_op (OpAdd x) n = Some (n', b) -> exists l, content n = OArr l /\ content n' = OArr (l ++ [content x]).
Proof.
  destruct n as [|p d w c l|]; try discriminate. cbn [run_op]. pose proof (content_add d (copy x) c l) as C. rewrite content_copy in C.
  destruct (vec_add d (copy x) c l) as [c' l']. intro H. injection H as <- _. eexists. split; [reflexivity|]. cbn [content snd] in *. rewrite C. reflexivity.
Qed.
Lemma array_insert i x n n' b : run_op (OpInsert i x) n = Some (n', b) ->
  exists l1 l2, length l1 = i /\ content n = OArr (l1 ++ l2) /\ content n' = OArr (l1 ++ content x :: l2).
Proof.
  destruct n as [|p d w c l|]; try discriminate. cbn [run_op]. destruct (Nat.leb_spec i (length l)) as [L|L]; [|discriminate].
  pose proof (content_insert d i (copy x) c l L) as C. rewrite content_copy in C.
  destruct (vec_insert d i (copy x) c l) as [c' l']. intro H. injection H as <- _. exists (firstn i (map content l)), (skipn i (map content l)).
  split; [rewrite firstn_length, map_length; lia|]. cbn [content snd] in *. rewrite firstn_skipn, C. auto.
Qed.
Lemma split_at {A} i (l : list A) x : nth_error l i = Some x -> l = firstn i l ++ x :: skipn (S i) l.
Proof. revert i. induction l as [|y l IH]; intros [|i] H; cbn in *; try discriminate H; [injection H as ->; reflexivity|]. f_equal. apply IH, H. Qed.
Lemma array_erase i n n' b : run_op (OpErase i) n = Some (n', b) ->
  exists l1 v l2, length l1 = i /\ content n = OArr (l1 ++ v :: l2) /\ content n' = OArr (l1 ++ l2).
Proof.
  destruct n as [|p d w c l|]; try discriminate. cbn [run_op]. destruct (Nat.ltb_spec i (length l)) as [L|L]; [|discriminate].
  intro H. injection H as <- _. destruct (nth_error (map content l) i) as [v|] eqn:G; [|apply nth_error_None in G; rewrite map_length in G; lia].
  exists (firstn i (map content l)), v, (skipn (S i) (map content l)). split; [rewrite firstn_length, map_length; lia|].
  cbn [content]. rewrite content_erase, <- split_at by exact G. auto.
Qed.
Lemma array_set i x n n' b : run_op (OpSetAt i x) n = Some (n', b) ->
  exists l1 v l2, length l1 = i /\ content n = OArr (l1 ++ v :: l2) /\ content n' = OArr (l1 ++ content x :: l2).
Proof.
  destruct n as [|p d w c l|]; try discriminate. cbn [run_op]. destruct (nth_error l i) as [y|] eqn:G; [|discriminate].
  intro H. injection H as <- _. assert (L : (i < length l)%nat) by (apply nth_error_Some; congruence).
  exists (firstn i (map content l)), (content y), (skipn (S i) (map content l)). split; [rewrite firstn_length, map_length; lia|].
  cbn [content]. rewrite (content_upd _ _ _ _ G), content_assign, <- split_at by (apply map_nth_error, G). auto.
Qed.
Lemma array_range i x n : (forall l, content n = OArr l -> (length l < i)%nat) -> (forall p d o, n <> Leaf p d o) ->
  run_op (OpInsert i x) n = None /\ run_op (OpErase i) n = None /\ run_op (OpSetAt i x) n = None.
Proof.
  intros L N. destruct n as [p d o|p d w c l|p d w m]; [destruct (N p d o eq_refl)| |auto]. specialize (L _ eq_refl). rewrite map_length in L. cbn [run_op].
  split; [destruct (Nat.leb_spec i (length l)); [lia|reflexivity]|]. split; [destruct (Nat.ltb_spec i (length l)); [lia|reflexivity]|].
  destruct (nth_error l i) eqn:G; [|reflexivity]. assert (i < length l)%nat by (apply nth_error_Some; congruence). lia.
Qed.
Lemma dict_put k x p d w m n' b : sorted m -> run_op (OpPut k x) (Dic p d w m) = Some (n', b) ->
  exists e e', content (Dic p d w m) = ODict e /\ content n' = ODict e' /\ get_key k e' = Some (content x) /\ (forall q, q <> k -> get_key q e' = get_key q e).
Proof.
  intros S. cbn [run_op]. destruct (get_key k m) as [y|] eqn:G; intro H; injection H as <- _; eexists; eexists; (split; [reflexivity|]); (split; [reflexivity|]).
  - split.
    + rewrite get_key_map, (upd_key_same _ _ y) by exact G. cbn. rewrite content_set_parent, content_assign. reflexivity.
    + intros q Q. rewrite !get_key_map, upd_key_other by congruence. reflexivity.
  - split.
    + rewrite get_key_map. unfold get_key, add_key. rewrite dict_get_add, beq_refl by exact S. cbn. rewrite content_set_parent, content_move_new, content_copy. reflexivity.
    + intros q Q. rewrite !get_key_map. unfold get_key, add_key. rewrite dict_get_add by exact S. destruct (beq q k) eqn:E; [apply beq_eq in E; congruence|reflexivity].
Qed.
