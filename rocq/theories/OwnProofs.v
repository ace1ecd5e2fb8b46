(** Proofs about containers and ownership. *)
From Coq Require Import String.
From Verif Require Import Base TokModel DictProofs ObjProofs OwnModel OwnSpec.
Local Open Scope Z_scope.

(** ** Dictionaries *)
Lemma erase_in {A} k (d : list (list Z * A)) p : In p (erase_key k d) -> In p d.
Proof.
  induction d as [|[k' v] d IH]; [auto|]. cbn [erase_key]. destruct (beq k' k); [right; assumption|].
  intros [<- |H]; [left; reflexivity|right; auto].
Qed.
Lemma erase_sorted {A} k (d : list (list Z * A)) : sorted d -> sorted (erase_key k d).
Proof.
  induction 1 as [|[k' v] d H IH F]; cbn [erase_key]; [constructor|]. destruct (beq k' k); [exact H|].
  constructor; [exact IH|]. rewrite Forall_forall in *. intros p P. apply F. eapply erase_in, P.
Qed.
Lemma erase_get {A} k q (d : list (list Z * A)) : sorted d -> dict_get q (erase_key k d) = if beq q k then None else dict_get q d.
Proof.
  induction 1 as [|[k' v] d H IH F]; cbn [erase_key dict_get]; [destruct (beq q k); reflexivity|].
  destruct (beq k' k) eqn:E.
  - apply beq_eq in E. subst k'. destruct (beq q k) eqn:Q; [|reflexivity]. apply beq_eq in Q. subst q. apply dict_get_lt, F.
  - cbn [dict_get]. rewrite IH. destruct (beq q k') eqn:Q; [|reflexivity]. apply beq_eq in Q. subst q. rewrite E. reflexivity.
Qed.
Lemma played_sorted {A} (h : list (dop A)) : sorted (played h).
Proof.
  induction h as [|[k v|k] h IH]; cbn [played].
  - constructor.
  - apply dict_add_sorted, IH.
  - unfold remove_key. destruct (has_key k (played h)); [apply erase_sorted, IH|exact IH].
Qed.
Lemma played_current {A} k (h : list (dop A)) x : current k h x -> get_key k (played h) = x.
Proof.
  unfold get_key. induction 1 as [|v h|h|k' v h x N _ IH|k' h x N _ IH]; cbn [played].
  - reflexivity.
  - unfold add_key. rewrite dict_get_add, beq_refl by apply played_sorted. reflexivity.
  - unfold remove_key, has_key. destruct (dict_get k (played h)) eqn:E; cbn [snd]; [|exact E].
    rewrite erase_get, beq_refl by apply played_sorted. reflexivity.
  - unfold add_key. rewrite dict_get_add by apply played_sorted. destruct (beq k k') eqn:E; [apply beq_eq in E; congruence|exact IH].
  - unfold remove_key. destruct (has_key k' (played h)); cbn [snd]; [|exact IH].
    rewrite erase_get by apply played_sorted. destruct (beq k k') eqn:E; [apply beq_eq in E; congruence|exact IH].
Qed.
Lemma current_total {A} k (h : list (dop A)) : exists x, current k h x.
Proof.
  induction h as [|[k' v|k'] h [x IH]]; [eexists; constructor|destruct (beq k' k) eqn:E|destruct (beq k' k) eqn:E].
  - apply beq_eq in E. subst k'. eexists. apply cur_put.
  - apply beq_neq in E. exists x. apply cur_other_put; assumption.
  - apply beq_eq in E. subst k'. eexists. apply cur_del.
  - apply beq_neq in E. exists x. apply cur_other_del; assumption.
Qed.
Lemma current_iff {A} k (h : list (dop A)) x : get_key k (played h) = x <-> current k h x.
Proof.
  split; [|apply played_current]. intro G. destruct (current_total k h) as [y C]. rewrite (played_current k h y C) in G. congruence.
Qed.

(** ** Inherited attributes *)
Lemma dict_get_split k (d : list (list Z * obj)) x : dict_get k d = Some x <-> exists d1 d2, d = d1 ++ (k, x) :: d2 /\ ~ In k (map fst d1).
Proof.
  split.
  - induction d as [|[k' v] d IH]; cbn [dict_get]; [discriminate|]. destruct (beq k k') eqn:E.
    + apply beq_eq in E. intro H. injection H as ->. subst k'. exists [], d. auto.
    + intro H. destruct (IH H) as (d1 & d2 & -> & N). exists ((k', v) :: d1), d2. split; [reflexivity|].
      cbn. apply beq_neq in E. intros [K|K]; [congruence|contradiction].
  - intros (d1 & d2 & -> & N). induction d1 as [|[k' v] d1 IH]; cbn [app dict_get].
    + rewrite beq_refl. reflexivity.
    + cbn in N. destruct (beq k k') eqn:E; [apply beq_eq in E; subst; exfalso; apply N; auto|]. apply IH. tauto.
Qed.
Lemma dict_find_entry look d k v : dict_find look k d = Some v <-> entry look d k v.
Proof.
  unfold dict_find, get_key, entry. split.
  - destruct (dict_get k d) as [x|] eqn:G; [|discriminate]. apply dict_get_split in G as (d1 & d2 & E & N).
    intro H. exists d1, x, d2. split; [exact E|]. split; [exact N|]. destruct x; congruence.
  - intros (d1 & x & d2 & E & N & V). replace (dict_get k d) with (Some x) by (symmetry; apply dict_get_split; eauto).
    destruct x; congruence.
Qed.
Lemma find_none look d k : dict_find look k d = None <-> forall v, ~ entry look d k v.
Proof.
  split.
  - intros H v E. apply dict_find_entry in E. congruence.
  - intro H. destruct (dict_find look k d) as [v|] eqn:E; [|reflexivity]. apply dict_find_entry in E. destruct (H v E).
Qed.
Lemma inherits_found look k d r : inherits look k d r -> exists n, forall fuel, (n <= fuel)%nat -> find_key_parent fuel look k d = Ok r.
Proof.
  induction 1 as [d v E|d p r N E _ [n IH]|d N P].
  - exists 1%nat. intros [|f] L; [lia|]. cbn [find_key_parent]. apply dict_find_entry in E. rewrite E. reflexivity.
  - exists (S n). intros [|f] L; [lia|]. cbn [find_key_parent]. apply (proj2 (find_none look d k)) in N. apply dict_find_entry in E. rewrite N, E. apply IH. lia.
  - exists 1%nat. intros [|f] L; [lia|]. cbn [find_key_parent]. apply (proj2 (find_none look d k)) in N. rewrite N.
    destruct (dict_find look (bs "Parent") d) as [v|] eqn:E; [|reflexivity]. destruct v; try reflexivity.
    apply dict_find_entry in E. destruct (P _ E).
Qed.
Lemma found_inherits look k fuel : forall d r, find_key_parent fuel look k d = Ok r -> inherits look k d r.
Proof.
  induction fuel as [|f IH]; intros d r H; [discriminate H|]. cbn [find_key_parent] in H.
  destruct (dict_find look k d) as [v|] eqn:F.
  - apply dict_find_entry in F. injection H as <-. constructor. exact F.
  - pose proof (proj1 (find_none look d k) F) as F'. clear F. rename F' into F. destruct (dict_find look (bs "Parent") d) as [v|] eqn:E.
    + destruct v; try (injection H as <-; apply inh_none; [exact F|]; intros p P; apply dict_find_entry in P; congruence).
      apply dict_find_entry in E. eapply inh_up; eauto.
    + injection H as <-. apply inh_none; [exact F|]. intros p P. apply dict_find_entry in P. congruence.
Qed.
Lemma find_parent_never look k fuel : forall d, find_key_parent fuel look k d = Fuel \/ exists r, find_key_parent fuel look k d = Ok r.
Proof.
  induction fuel as [|f IH]; intro d; [left; reflexivity|]. cbn [find_key_parent].
  destruct (dict_find look k d); [eauto|]. destruct (dict_find look (bs "Parent") d) as [[]|]; eauto.
Qed.

(** ** Comparison *)
Lemma var_eq_arr x y : var_eq (OArr x) (OArr y) = true <-> Forall2 (fun a b => var_eq a b = true) x y.
Proof.
  cbn [var_eq]. revert y. induction x as [|u x IH]; intros [|v y]; split; intro H; try constructor; try discriminate H; try (inversion H; fail).
  - apply andb_true_iff in H as [H1 H2]. exact H1.
  - apply andb_true_iff in H as [H1 H2]. apply IH, H2.
  - inversion H as [|? ? ? ? H1 H2]; subst. apply IH in H2. rewrite H1, H2. reflexivity.
Qed.
Lemma var_eq_dict x y : var_eq (ODict x) (ODict y) = true <-> Forall2 (fun a b => fst a = fst b /\ var_eq (snd a) (snd b) = true) x y.
Proof.
  cbn [var_eq]. revert y. induction x as [|[j u] x IH]; intros [|[k v] y]; split; intro H; try constructor; try discriminate H; try (inversion H; fail).
  - apply andb_true_iff in H as [H1 H2]. apply andb_true_iff in H1 as [H1 H3]. apply beq_eq in H1. auto.
  - apply andb_true_iff in H as [H1 H2]. apply IH, H2.
  - inversion H as [|? ? ? ? [H1 H3] H2]; subst. apply IH in H2. cbn in H1. subst k. cbn in H3. rewrite beq_refl, H3, H2. reflexivity.
Qed.
Lemma var_eq_same a : no_null a -> forall b, var_eq a b = true <-> same_value a b.
Proof.
  induction a as [|x|z|m k0|nm|hx x|n g|l IH|d0 IH] using obj_ind2; intros N b.
  - inversion N as [| |? K]. destruct K.
  - destruct b; cbn [var_eq]; split; intro H; try discriminate H; try (inversion H; fail).
    + apply Bool.eqb_prop in H. subst. constructor.
    + inversion H. apply Bool.eqb_reflx.
  - destruct b; cbn [var_eq]; split; intro H; try discriminate H; try (inversion H; fail).
    + apply Z.eqb_eq in H. subst. constructor.
    + inversion H. apply Z.eqb_refl.
  - destruct b; cbn [var_eq]; split; intro H; try discriminate H; try (inversion H; fail).
    + apply Z.eqb_eq in H. constructor. exact H.
    + inversion H. apply Z.eqb_eq. assumption.
  - destruct b; cbn [var_eq]; split; intro H; try discriminate H; try (inversion H; fail).
    + apply beq_eq in H. subst. constructor.
    + inversion H. apply beq_refl.
  - destruct b; cbn [var_eq]; split; intro H; try discriminate H; try (inversion H; fail).
    + apply beq_eq in H. subst. constructor.
    + inversion H. apply beq_refl.
  - destruct b; cbn [var_eq]; split; intro H; try discriminate H; try (inversion H; fail).
    + apply andb_true_iff in H as [H1 H2]. apply Z.eqb_eq in H1, H2. subst. constructor.
    + inversion H. rewrite !Z.eqb_refl. reflexivity.
  - assert (NL : Forall no_null l) by (inversion N as [? K|? K|? K]; [exact K|destruct K]). clear N.
    destruct b as [| | | | | | |l'|]; try (split; intro H; [discriminate H|inversion H]).
    rewrite var_eq_arr. split.
    + intro H. constructor. revert l' H. induction IH as [|x l HX _ IHl]; intros l' H; inversion H; subst; constructor.
      * apply HX; [exact (Forall_inv NL)|assumption].
      * apply IHl; [exact (Forall_inv_tail NL)|assumption].
    + intro H. inversion H as [| | | | | | |? ? F|]; subst. clear H. revert l' F. induction IH as [|x l HX _ IHl]; intros l' F; inversion F; subst; constructor.
      * apply HX; [exact (Forall_inv NL)|assumption].
      * apply IHl; [exact (Forall_inv_tail NL)|assumption].
  - assert (NL : Forall (fun kv => no_null (snd kv)) d0) by (inversion N as [? K|? K|? K]; [exact K|destruct K]). clear N.
    destruct b as [| | | | | | | |l']; try (split; intro H; [discriminate H|inversion H]).
    rewrite var_eq_dict. split.
    + intro H. constructor. revert l' H. induction IH as [|x l HX _ IHl]; intros l' H; inversion H as [|? y ? ? [K1 K2]]; subst; constructor.
      * split; [exact K1|]. apply HX; [exact (Forall_inv NL)|assumption].
      * apply IHl; [exact (Forall_inv_tail NL)|assumption].
    + intro H. inversion H as [| | | | | | | |? ? F]; subst. clear H. revert l' F. induction IH as [|x l HX _ IHl]; intros l' F; inversion F as [|? y ? ? [K1 K2]]; subst; constructor.
      * split; [exact K1|]. apply HX; [exact (Forall_inv NL)|assumption].
      * apply IHl; [exact (Forall_inv_tail NL)|assumption].
Qed.
Lemma same_refl a : same_value a a.
Proof.
  induction a as [|x|z|m k0|nm|hx x|n g|l IH|d0 IH] using obj_ind2; constructor; try reflexivity.
  - induction IH; constructor; assumption.
  - induction IH; constructor; auto.
Qed.
Lemma same_sym a : forall b, same_value a b -> same_value b a.
Proof.
  induction a as [|x|z|m k0|nm|hx x|n g|l IH|d0 IH] using obj_ind2; intros b H; inversion H as [| | |? ? ? ? E| | | |? ? F|? ? F]; subst; constructor.
  - symmetry. exact E.
  - clear H. revert y F. induction IH as [|x l HX _ IHl]; intros y F; inversion F; subst; constructor; auto.
  - clear H. revert y F. induction IH as [|x l HX _ IHl]; intros y F; inversion F as [|? z ? ? [K1 K2]]; subst; constructor; auto.
Qed.
Lemma same_trans a : forall b c, same_value a b -> same_value b c -> same_value a c.
Proof.
  induction a as [|x|z|m k0|nm|hx x|n g|l IH|d0 IH] using obj_ind2; intros b c H H'; inversion H as [| | |? ? m' l' E| | | |? ? F|? ? F]; subst;
    inversion H' as [| | |? ? m'' l'' E'| | | |? ? F'|? ? F']; subst; constructor.
  - assert (P : 10 ^ Z.of_nat l' <> 0) by (apply Z.pow_nonzero; lia). apply Z.mul_cancel_r with (p := 10 ^ Z.of_nat l'); [exact P|]. nia.
  - clear H H'. revert y F y0 F'. induction IH as [|x l HX _ IHl]; intros y F y0 F'; inversion F; subst; inversion F'; subst; constructor; eauto.
  - clear H H'. revert y F y0 F'. induction IH as [|x l HX _ IHl]; intros y F y0 F'; inversion F as [|? ? ? ? [K1 K2]]; subst; inversion F' as [|? ? ? ? [K3 K4]]; subst; constructor; eauto.
    split; [congruence|eauto].
Qed.

(** ** Ownership *)
Section NodeInd.
Variable P : node -> Prop.
Hypothesis HL : forall p d o, P (Leaf p d o).
Hypothesis HA : forall p d w c l, Forall P l -> P (Arr p d w c l).
Hypothesis HD : forall p d w m, Forall (fun kv => P (snd kv)) m -> P (Dic p d w m).
Fixpoint node_ind2 (n : node) : P n :=
  match n with
  | Leaf p d o => HL p d o
  | Arr p d w c l => HA p d w c l ((fix go (l : list node) : Forall P l := match l with [] => Forall_nil _ | x :: t => Forall_cons x (node_ind2 x) (go t) end) l)
  | Dic p d w m => HD p d w m ((fix go (m : list (list Z * node)) : Forall (fun kv => P (snd kv)) m :=
      match m with [] => Forall_nil _ | x :: t => Forall_cons x (node_ind2 (snd x)) (go t) end) m)
  end.
End NodeInd.

Lemma set_owner_disown n : set_owner (disown n) = set_owner n. Proof. destruct n; reflexivity. Qed.
Lemma move_new_eq n : move_new n = set_owner (flags false false n). Proof. apply set_owner_disown. Qed.
Lemma move_to_eq t n : move_to t n = set_owner (flags (par t) (doc t) n). Proof. apply set_owner_disown. Qed.
Lemma content_flags p d n : content (flags p d n) = content n. Proof. destruct n; reflexivity. Qed.
Lemma content_set_parent d n : content (set_parent d n) = content n.
Proof.
  induction n as [p d' o|p d' w c l IH|p d' w m IH] using node_ind2; cbn [set_parent]; [reflexivity| |].
  - destruct (Bool.eqb d' d); [reflexivity|]. cbn [content]. f_equal. rewrite map_map. induction IH; cbn; congruence.
  - destruct (Bool.eqb d' d); [reflexivity|]. cbn [content]. f_equal. rewrite map_map. cbn [fst snd]. induction IH; cbn; congruence.
Qed.
Lemma content_set_owner n : content (set_owner n) = content n.
Proof.
  destruct n as [| ? ? ? ? l|? ? ? m]; cbn [set_owner content]; [reflexivity| |]; f_equal; rewrite map_map; apply map_ext; intro x; cbn [fst snd];
    rewrite content_set_parent; reflexivity.
Qed.
Lemma content_copy n : content (copy n) = content n.
Proof.
  induction n as [p d' o|p d' w c l IH|p d' w m IH] using node_ind2; cbn [copy content]; [reflexivity| |]; f_equal; rewrite map_map; cbn [fst snd];
    induction IH as [|x t HX _ IHt]; cbn [map]; rewrite ?content_set_parent; congruence.
Qed.
Lemma content_move_new n : content (move_new n) = content n.
Proof. rewrite move_new_eq, content_set_owner, content_flags. reflexivity. Qed.
Lemma content_move_to t n : content (move_to t n) = content n.
Proof. rewrite move_to_eq, content_set_owner, content_flags. reflexivity. Qed.
Lemma content_assign t n : content (assign t n) = content n.
Proof. unfold assign. rewrite content_move_to. apply content_copy. Qed.

Lemma flags_flags p d p' d' n : flags p d (flags p' d' n) = flags p d n. Proof. destruct n; reflexivity. Qed.
Lemma flags_same n : flags (par n) (doc n) n = n. Proof. destruct n; reflexivity. Qed.
Lemma par_flags p d n : par (flags p d n) = p. Proof. destruct n; reflexivity. Qed.
Lemma doc_flags p d n : doc (flags p d n) = d. Proof. destruct n; reflexivity. Qed.
Lemma linked_flags d n : linked d n -> par n = true /\ doc n = d /\ rooted n.
Proof.
  intro H. assert (K : par n = true /\ doc n = d) by (inversion H; auto). destruct K as [K1 K2]. split; [exact K1|]. split; [exact K2|].
  unfold rooted. rewrite K2. rewrite <- (flags_same n), K1, K2 in H. rewrite ?flags_flags in *. exact H.
Qed.
Lemma rooted_linked n : rooted n -> par n = true -> linked (doc n) n.
Proof. unfold rooted. intros H P. rewrite <- P, flags_same in H. exact H. Qed.
Lemma set_parent_linked d n : rooted n -> linked d (set_parent d n).
Proof.
  induction n as [p d' o|p d' w c l IH|p d' w m IH] using node_ind2; unfold rooted; cbn [flags doc set_parent]; intro H.
  - constructor.
  - inversion H; subst. destruct (Bool.eqb d' d) eqn:E; [apply Bool.eqb_prop in E; subst; constructor; assumption|]. constructor.
    rewrite Forall_map. eapply Forall_impl; [|exact (Forall_and IH ltac:(eassumption))]. intros x [X1 X2]. apply X1. apply (linked_flags _ _ X2).
  - inversion H; subst. destruct (Bool.eqb d' d) eqn:E; [apply Bool.eqb_prop in E; subst; constructor; assumption|]. constructor.
    rewrite Forall_map. eapply Forall_impl; [|exact (Forall_and IH ltac:(eassumption))]. intros x [X1 X2]. cbn [snd]. apply X1. apply (linked_flags _ _ X2).
Qed.
Lemma doc_copy n : doc (copy n) = false. Proof. destruct n; reflexivity. Qed.
Lemma copy_rooted n : rooted (copy n).
Proof.
  unfold rooted. rewrite doc_copy.
  induction n as [p d' o|p d' w c l IH|p d' w m IH] using node_ind2; cbn [copy flags]; constructor.
  - rewrite Forall_map. eapply Forall_impl; [|exact IH]. intros x X. apply set_parent_linked. unfold rooted. rewrite doc_copy. exact X.
  - rewrite Forall_map. eapply Forall_impl; [|exact IH]. intros x X. cbn [snd]. apply set_parent_linked. unfold rooted. rewrite doc_copy. exact X.
Qed.
Lemma set_owner_rooted p d n : rooted n -> rooted (set_owner (flags p d n)).
Proof.
  unfold rooted. destruct n as [p' d' o|p' d' w c l|p' d' w m]; cbn [flags set_owner doc]; intro H; inversion H; subst; constructor.
  - rewrite Forall_map. eapply Forall_impl; [|eassumption]. intros x X. apply set_parent_linked. apply (linked_flags _ _ X).
  - rewrite Forall_map. eapply Forall_impl; [|eassumption]. intros x X. cbn [snd]. apply set_parent_linked. apply (linked_flags _ _ X).
Qed.
Lemma set_owner_flags n : par (set_owner n) = par n /\ doc (set_owner n) = doc n. Proof. destruct n; auto. Qed.
Lemma move_to_linked d t n : linked d t -> rooted n -> linked d (move_to t n).
Proof.
  intros T N. destruct (linked_flags _ _ T) as (T1 & T2 & _). rewrite move_to_eq, T1, T2.
  pose proof (set_owner_rooted true d n N) as R. apply rooted_linked in R.
  - destruct (set_owner_flags (flags true d n)) as [_ E]. rewrite E, doc_flags in R. exact R.
  - destruct (set_owner_flags (flags true d n)) as [E _]. rewrite E, par_flags. reflexivity.
Qed.
Lemma assign_linked d t n : linked d t -> linked d (assign t n).
Proof. intro T. apply move_to_linked; [exact T|apply copy_rooted]. Qed.
Lemma assign_flags t n : par (assign t n) = par t /\ doc (assign t n) = doc t.
Proof. unfold assign. rewrite move_to_eq. destruct (set_owner_flags (flags (par t) (doc t) (copy n))) as [A B]. rewrite A, B, par_flags, doc_flags. auto. Qed.
Lemma assign_rooted t n : rooted (assign t n).
Proof. unfold assign; rewrite move_to_eq; apply set_owner_rooted, copy_rooted. Qed.
Lemma move_new_rooted n : rooted n -> rooted (move_new n).
Proof. rewrite move_new_eq; apply set_owner_rooted. Qed.

Lemma upd_Forall {A} (P : A -> Prop) i x l : Forall P l -> P x -> Forall P (upd i x l).
Proof. intros H X. revert i. induction H as [|y l Y H IH]; intros [|i]; cbn; constructor; auto. Qed.
Lemma upd_key_Forall {A} (P : A -> Prop) k x (m : list (list Z * A)) : Forall (fun kv => P (snd kv)) m -> P x -> Forall (fun kv => P (snd kv)) (upd_key k x m).
Proof. intros H X. induction H as [|[k' v] m Y H IH]; cbn; [constructor|]. destruct (beq k k'); constructor; auto. Qed.
Lemma add_key_Forall {A} (P : A -> Prop) k x (m : list (list Z * A)) : Forall (fun kv => P (snd kv)) m -> P x -> Forall (fun kv => P (snd kv)) (add_key k x m).
Proof.
  unfold add_key. intros H X. rewrite Forall_forall in *. intros p I. apply dict_add_in in I as [-> |I]; [exact X|auto].
Qed.
Lemma get_key_Forall {A} (P : A -> Prop) k x (m : list (list Z * A)) : Forall (fun kv => P (snd kv)) m -> get_key k m = Some x -> P x.
Proof.
  unfold get_key. induction 1 as [|[k' v] m Y H IH]; cbn; [discriminate|]. destruct (beq k k'); [|auto]. intro E. injection E as <-. exact Y.
Qed.
Lemma erase_key_Forall {A} (P : A -> Prop) k (m : list (list Z * A)) : Forall (fun kv => P (snd kv)) m -> Forall (fun kv => P (snd kv)) (erase_key k m).
Proof. intros H. rewrite Forall_forall in *. intros p I. apply H. eapply erase_in, I. Qed.
Lemma upd_map {A B} (f : A -> B) i x y l : nth_error l i = Some x -> f y = f x -> map f (upd i y l) = map f l.
Proof. intros N E. revert i N. induction l as [|z l IH]; intros [|i] N; cbn in *; try discriminate; [injection N as ->|rewrite IH by exact N]; congruence. Qed.
Lemma upd_key_map {A B} (f : A -> B) k x y (m : list (list Z * A)) : get_key k m = Some x -> f y = f x ->
  map (fun kv => (fst kv, f (snd kv))) (upd_key k y m) = map (fun kv => (fst kv, f (snd kv))) m.
Proof.
  unfold get_key. intros N E. induction m as [|[k' v] m IH]; cbn in *; [reflexivity|]. destruct (beq k k'); cbn.
  - injection N as ->. congruence.
  - rewrite IH by exact N. reflexivity.
Qed.
Lemma shift_down_linked d l : forall s, linked d s -> Forall (linked d) l -> Forall (linked d) (shift_down s l).
Proof.
  induction l as [|y l IH]; intros s S F; cbn; [constructor|]. constructor.
  - apply move_to_linked; [exact S|]. apply (linked_flags d). exact (Forall_inv F).
  - apply IH; [exact (Forall_inv F)|exact (Forall_inv_tail F)].
Qed.
Lemma vec_erase_linked d i : forall l, Forall (linked d) l -> Forall (linked d) (vec_erase i l).
Proof.
  induction i as [|i IH]; intros [|y l] F; cbn; try constructor.
  - apply shift_down_linked; [exact (Forall_inv F)|exact (Forall_inv_tail F)].
  - exact (Forall_inv F).
  - apply IH. exact (Forall_inv_tail F).
Qed.

Lemma rooted_arr p d w c l : rooted (Arr p d w c l) <-> w = true /\ Forall (linked d) l.
Proof. unfold rooted. cbn [flags doc]. split; [intro H; inversion H; auto|intros [-> F]; constructor; exact F]. Qed.
Lemma rooted_dic p d w m : rooted (Dic p d w m) <-> w = true /\ Forall (fun kv => linked d (snd kv)) m.
Proof. unfold rooted. cbn [flags doc]. split; [intro H; inversion H; auto|intros [-> F]; constructor; exact F]. Qed.

Lemma vec_add_in_place d x c l : (length l < c)%nat -> vec_add d (copy x) c l = (c, l ++ [set_parent d (move_new (copy x))]).
Proof. intro L. unfold vec_add. destruct (Nat.ltb_spec (length l) c); [reflexivity|lia]. Qed.

Lemma op_flags o n n' b : run_op o n = Some (n', b) -> par n' = par n /\ doc n' = doc n.
Proof.
  destruct o; cbn [run_op]; intro H; try (destruct n; try discriminate H).
  - destruct (same_kind o0 o); [injection H as <- _; auto|discriminate H].
  - injection H as <- _. apply assign_flags.
  - injection H as <- _. apply assign_flags.
  - injection H as <- _. apply assign_flags.
  - destruct (get_key k d); injection H as <- _; auto.
  - destruct (remove_key k d); injection H as <- _; auto.
  - injection H as <- _; auto.
  - injection H as <- _; auto.
  - destruct (vec_add doc (copy n0) cap l); injection H as <- _; auto.
  - destruct (i <=? length l)%nat; [|discriminate H]. destruct (vec_insert doc i (copy n0) cap l); injection H as <- _; auto.
  - destruct (i <? length l)%nat; [|discriminate H]. injection H as <- _; auto.
  - destruct (nth_error l i); [|discriminate H]. injection H as <- _; auto.
  - injection H as <- _. destruct (k <=? cap)%nat; auto.
  - destruct (k <=? length l)%nat; [injection H as <- _; auto|]. destruct (k <=? cap)%nat; injection H as <- _; auto.
Qed.
Lemma path_flags p : forall o n n' b, at_path p o n = Some (n', b) -> par n' = par n /\ doc n' = doc n.
Proof.
  destruct p as [|[i|k] r]; intros o n n' b H; cbn [at_path] in H; [apply (op_flags _ _ _ _ H)| |].
  - destruct n as [|pa d w c l|]; try discriminate H. destruct (nth_error l i); [|discriminate H]. destruct (at_path r o n) as [[x' b']|]; [|discriminate H].
    injection H as <- _. auto.
  - destruct n as [| |pa d w m]; try discriminate H. destruct (get_key k m) as [x|]; [|discriminate H]. destruct (at_path r o x) as [[x' b']|]; [|discriminate H].
    injection H as <- _. auto.
Qed.

(** every operation but the growing of [resize] reports the change *)
Definition reports (o : op) : Prop := match o with OpResize _ => False | _ => True end.
Lemma op_reports o n n' b : rooted n -> reports o -> run_op o n = Some (n', b) -> b = true \/ content n' = content n.
Proof.
  intros R S. destruct o; cbn [run_op]; intro H; try (destruct n; try discriminate H); try (apply rooted_arr in R as [-> R]); try (apply rooted_dic in R as [-> R]).
  - destruct (same_kind o0 o); [injection H as _ <-; auto|discriminate H].
  - injection H as _ <-. auto.
  - injection H as _ <-. auto.
  - injection H as _ <-. auto.
  - destruct (get_key k d) as [y|] eqn:G; injection H as _ <-; [|auto].
    destruct (linked_flags _ _ (get_key_Forall _ _ _ _ R G)) as (P & _). rewrite P. auto.
  - unfold remove_key in H. destruct (has_key k d); injection H as <- <-; auto.
  - injection H as <- <-. destruct l; auto.
  - injection H as <- <-. destruct d; auto.
  - destruct (vec_add doc (copy n0) cap l); injection H as _ <-; auto.
  - destruct (i <=? length l)%nat; [|discriminate H]. destruct (vec_insert doc i (copy n0) cap l); injection H as _ <-; auto.
  - destruct (i <? length l)%nat; [|discriminate H]. injection H as _ <-; auto.
  - destruct (nth_error l i) as [y|] eqn:G; [|discriminate H]. injection H as _ <-.
    apply nth_error_In in G. rewrite Forall_forall in R. destruct (linked_flags _ _ (R _ G)) as (P & _). rewrite P. auto.
  - injection H as <- <-. right. destruct (k <=? cap)%nat; [reflexivity|]. cbn [content]. rewrite map_map. f_equal. apply map_ext, content_move_new.
  - destruct S.
Qed.
Lemma path_reports p : forall o n n' b, rooted n -> reports o -> at_path p o n = Some (n', b) -> b = true \/ content n' = content n.
Proof.
  induction p as [|[i|k] r IH]; intros o n n' b R S H; cbn [at_path] in H; [eapply op_reports; eauto| |].
  - destruct n as [|pa d w c l|]; try discriminate H. apply rooted_arr in R as [-> R]. destruct (nth_error l i) as [x|] eqn:G; [|discriminate H].
    destruct (at_path r o x) as [[x' b']|] eqn:A; [|discriminate H]. injection H as <- <-.
    pose proof G as G'. apply nth_error_In in G'. rewrite Forall_forall in R. destruct (linked_flags _ _ (R _ G')) as (P & _ & X).
    destruct (path_flags _ _ _ _ _ A) as [P' _]. rewrite P', P. destruct (IH _ _ _ _ X S A) as [-> |E]; [auto|].
    right. cbn [content]. f_equal. apply (upd_map _ _ x); assumption.
  - destruct n as [| |pa d w m]; try discriminate H. apply rooted_dic in R as [-> R]. destruct (get_key k m) as [x|] eqn:G; [|discriminate H].
    destruct (at_path r o x) as [[x' b']|] eqn:A; [|discriminate H]. injection H as <- <-.
    destruct (linked_flags _ _ (get_key_Forall _ _ _ _ R G)) as (P & _ & X).
    destruct (path_flags _ _ _ _ _ A) as [P' _]. rewrite P', P. destruct (IH _ _ _ _ X S A) as [-> |E]; [auto|].
    right. cbn [content]. f_equal. apply (upd_key_map _ _ x); assumption.
Qed.

(** operations in place keep the links *)
Lemma op_rooted o n n' b : rooted n -> in_place o n -> run_op o n = Some (n', b) -> rooted n'.
Proof.
  intros R S. destruct o; cbn [run_op]; intro H; try (destruct n; try discriminate H); try (apply rooted_arr in R as [-> R]); try (apply rooted_dic in R as [-> R]).
  - destruct (same_kind o0 o); [injection H as <- _|discriminate H]. unfold rooted. cbn. constructor.
  - injection H as <- _. apply assign_rooted.
  - injection H as <- _. apply assign_rooted.
  - injection H as <- _. apply assign_rooted.
  - destruct (get_key k d) as [y|] eqn:G; injection H as <- _; apply rooted_dic; (split; [reflexivity|]).
    + apply upd_key_Forall; [exact R|]. apply set_parent_linked, assign_rooted.
    + apply add_key_Forall; [exact R|]. apply set_parent_linked, move_new_rooted, copy_rooted.
  - unfold remove_key in H. destruct (has_key k d); injection H as <- _; apply rooted_dic; (split; [reflexivity|]); [apply erase_key_Forall|]; exact R.
  - injection H as <- _. apply rooted_arr. auto.
  - injection H as <- _. apply rooted_dic. auto.
  - cbn in S. rewrite vec_add_in_place in H by exact S. injection H as <- _. apply rooted_arr. split; [reflexivity|].
    apply Forall_app. split; [exact R|]. constructor; [|constructor]. apply set_parent_linked, move_new_rooted, copy_rooted.
  - cbn in S. destruct S as [-> S]. destruct (length l <=? length l)%nat; [|discriminate H]. unfold vec_insert in H. rewrite Nat.eqb_refl, vec_add_in_place in H by exact S.
    injection H as <- _. apply rooted_arr. split; [reflexivity|].
    apply Forall_app. split; [exact R|]. constructor; [|constructor]. apply set_parent_linked, move_new_rooted, copy_rooted.
  - destruct (i <? length l)%nat; [|discriminate H]. injection H as <- _. apply rooted_arr. split; [reflexivity|]. apply vec_erase_linked, R.
  - destruct (nth_error l i) as [y|] eqn:G; [|discriminate H]. injection H as <- _. apply rooted_arr. split; [reflexivity|].
    apply upd_Forall; [exact R|]. apply assign_linked. apply nth_error_In in G. rewrite Forall_forall in R. auto.
  - cbn in S. destruct (Nat.leb_spec k cap); [|lia]. injection H as <- _. apply rooted_arr. auto.
  - destruct S.
Qed.
Lemma path_rooted p : forall o n n' b x, rooted n -> get_at p n = Some x -> in_place o x -> at_path p o n = Some (n', b) -> rooted n'.
Proof.
  induction p as [|[i|k] r IH]; intros o n n' b x R GA S H; cbn [at_path get_at] in H, GA; [injection GA as ->; eapply op_rooted; eauto| |].
  - destruct n as [|pa d w c l|]; try discriminate H. apply rooted_arr in R as [-> R]. destruct (nth_error l i) as [y|] eqn:G; [|discriminate H].
    destruct (at_path r o y) as [[x' b']|] eqn:A; [|discriminate H]. injection H as <- <-.
    apply nth_error_In in G. pose proof R as R'. rewrite Forall_forall in R. destruct (linked_flags _ _ (R _ G)) as (P & D & X).
    destruct (path_flags _ _ _ _ _ A) as [P' D']. apply rooted_arr. split; [reflexivity|]. apply upd_Forall; [exact R'|].
    rewrite <- D, <- D'. apply rooted_linked; [|congruence]. eapply IH; eauto.
  - destruct n as [| |pa d w m]; try discriminate H. apply rooted_dic in R as [-> R]. destruct (get_key k m) as [y|] eqn:G; [|discriminate H].
    destruct (at_path r o y) as [[x' b']|] eqn:A; [|discriminate H]. injection H as <- <-.
    destruct (linked_flags _ _ (get_key_Forall _ _ _ _ R G)) as (P & D & X).
    destruct (path_flags _ _ _ _ _ A) as [P' D']. apply rooted_dic. split; [reflexivity|]. apply upd_key_Forall; [exact R|].
    rewrite <- D, <- D'. apply rooted_linked; [|congruence]. eapply IH; eauto.
Qed.

Lemma history_dirty s c : history s c -> rooted (fst s) /\ (c = true -> snd s = true).
Proof.
  induction 1 as [n b R|s c _ [R _]|s c p o x s' _ [R D] G I M c' E1 E2].
  - split; [exact R|discriminate].
  - split; [exact R|discriminate].
  - cbn [mstep] in M. destruct (at_path p o (fst s)) as [[n' b']|] eqn:A; [|discriminate M]. injection M as <-. cbn [fst snd] in *. split.
    + eapply path_rooted; eauto.
    + intro C. assert (RP : reports o) by (destruct o, x; cbn in *; try exact Logic.I; exact I).
      destruct (path_reports _ _ _ _ _ R RP A) as [-> |E]; [apply orb_true_r|]. rewrite D; [reflexivity|]. rewrite <- (E1 E). exact C.
Qed.

(** ** Arrays as lists: the values after an operation *)
Lemma content_upd i x l y : nth_error l i = Some y -> map content (upd i x l) = firstn i (map content l) ++ content x :: skipn (S i) (map content l).
Proof.
  revert i. induction l as [|z l IH]; intros [|i] H; cbn in *; try discriminate H; [reflexivity|]. f_equal. apply IH, H.
Qed.
Lemma content_shift_down l : forall s, map content (shift_down s l) = map content l.
Proof. induction l as [|y l IH]; intro s; cbn; [reflexivity|]. rewrite content_move_to, IH. reflexivity. Qed.
Lemma content_erase i : forall l, map content (vec_erase i l) = firstn i (map content l) ++ skipn (S i) (map content l).
Proof.
  induction i as [|i IH]; intros [|y l]; try reflexivity.
  - cbn. apply content_shift_down.
  - cbn [vec_erase map firstn app]. rewrite IH. reflexivity.
Qed.
Lemma content_shift_up l : forall v, map content (shift_up v l) = content v :: map content l.
Proof. induction l as [|y l IH]; intro v; cbn [shift_up map]; [rewrite content_move_new; reflexivity|]. rewrite content_move_to, IH. reflexivity. Qed.
Lemma content_vec_shift i : forall x l, (i <= length l)%nat -> map content (vec_shift i x l) = firstn i (map content l) ++ content x :: skipn i (map content l).
Proof.
  induction i as [|i IH]; intros x l L.
  - cbn. apply content_shift_up.
  - destruct l as [|y l]; cbn in L; [lia|]. cbn [vec_shift map firstn skipn app]. rewrite IH by lia. reflexivity.
Qed.
Lemma map_move_new l : map content (map move_new l) = map content l.
Proof. rewrite map_map. apply map_ext, content_move_new. Qed.
Lemma content_add d x c l : map content (snd (vec_add d x c l)) = map content l ++ [content x].
Proof.
  unfold vec_add. destruct (length l <? c)%nat; cbn [snd]; rewrite map_app; cbn [map]; rewrite content_set_parent, content_move_new, ?map_move_new; reflexivity.
Qed.
Lemma content_insert d i x c l : (i <= length l)%nat ->
  map content (snd (vec_insert d i x c l)) = firstn i (map content l) ++ content x :: skipn i (map content l).
Proof.
  intro L. unfold vec_insert. destruct (Nat.eqb_spec i (length l)) as [->|N].
  - rewrite content_add. rewrite <- (map_length content l), firstn_all, skipn_all. reflexivity.
  - cbv zeta. destruct (length l <? c)%nat; cbn [snd].
    + pose proof (content_vec_shift i (move_new x) l L) as E. rewrite content_move_new in E.
      destruct (nth_error (vec_shift i (move_new x) l) i) as [y|] eqn:G; [|exact E].
      rewrite (upd_map content i y (set_parent d y) _ G); [exact E|]. apply content_set_parent.
    + rewrite map_app. cbn [map]. rewrite content_set_parent, content_move_new, !map_move_new, firstn_map, skipn_map. reflexivity.
Qed.
