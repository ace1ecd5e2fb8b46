(** Ordered maps keyed by byte strings: the std::map of PdfDictionary. *)
From Coq Require Import Sorting.Sorted.
From Verif Require Import Base TokModel.
Local Open Scope Z_scope.

Lemma bytes_lt_irrefl a : bytes_lt a a = false.
Proof. induction a as [|x a IH]; [reflexivity|]. cbn. rewrite Z.ltb_irrefl, Z.eqb_refl, IH. reflexivity. Qed.

Lemma bytes_lt_trans a : forall b c, bytes_lt a b = true -> bytes_lt b c = true -> bytes_lt a c = true.
Proof.
  induction a as [|x a IH]; intros [|y b] [|z c] H1 H2; cbn in *; try discriminate; auto.
  apply orb_true_iff in H1. apply orb_true_iff in H2. apply orb_true_iff.
  rewrite !andb_true_iff, !Z.ltb_lt, !Z.eqb_eq in *.
  destruct H1 as [H1|[H1 H1']], H2 as [H2|[H2 H2']]; try (left; lia).
  right. split; [lia|]. eapply IH; eauto.
Qed.

Lemma bytes_lt_total a : forall b, beq a b = false -> bytes_lt a b = false -> bytes_lt b a = true.
Proof.
  induction a as [|x a IH]; intros [|y b] H1 H2; cbn in *; try discriminate; auto.
  apply orb_false_iff in H2. destruct H2 as [H2 H3]. apply Z.ltb_ge in H2.
  apply orb_true_iff. rewrite andb_true_iff, Z.ltb_lt, Z.eqb_eq.
  destruct (Z.eq_dec x y) as [->|]; [|left; lia].
  right. split; auto. rewrite Z.eqb_refl in *. cbn in *. auto.
Qed.

Section Dict.
Context {A : Type}.
Notation dict := (list (list Z * A)).

(** Strictly increasing keys *)
Definition klt (p q : list Z * A) : Prop := bytes_lt (fst p) (fst q) = true.
Definition sorted (d : dict) : Prop := StronglySorted klt d.

Lemma sorted_nil : sorted []. Proof. constructor. Qed.

Lemma dict_get_lt k (d : dict) : Forall (fun p => bytes_lt k (fst p) = true) d -> dict_get k d = None.
Proof.
  induction 1 as [|[k' v'] d H _ IH]; [reflexivity|]. cbn in *.
  destruct (beq k k') eqn:E; auto. apply beq_eq in E. subst. rewrite bytes_lt_irrefl in H. discriminate.
Qed.

Lemma dict_add_in k v (d : dict) p : In p (dict_add k v d) -> p = (k, v) \/ In p d.
Proof.
  induction d as [|[k' v'] d IH]; cbn.
  - intros [<-|[]]; auto.
  - destruct (beq k k') eqn:E.
    + apply beq_eq in E. subst. cbn. intuition congruence.
    + destruct (bytes_lt k k'); cbn; [intuition congruence|]. intros [<-|H]; auto. apply IH in H. tauto.
Qed.

Lemma dict_add_sorted k v (d : dict) : sorted d -> sorted (dict_add k v d).
Proof.
  induction 1 as [|[k' v'] d Hd IH Hf]; cbn [dict_add].
  - repeat constructor.
  - destruct (beq k k') eqn:E.
    + constructor; auto. 
    + destruct (bytes_lt k k') eqn:L.
      * constructor; [constructor; auto|]. constructor; [exact L|].
        eapply Forall_impl; [|exact Hf]. intros p Hp. unfold klt in *. cbn [fst] in *. eapply bytes_lt_trans; eauto.
      * constructor; auto. apply Forall_forall. intros p Hp. apply dict_add_in in Hp. destruct Hp as [->|Hp].
        -- unfold klt. cbn. apply bytes_lt_total; auto.
        -- rewrite Forall_forall in Hf. auto.
Qed.

Lemma dict_get_add k v q (d : dict) : sorted d -> dict_get q (dict_add k v d) = if beq q k then Some v else dict_get q d.
Proof.
  induction 1 as [|[k' v'] d Hd IH Hf]; cbn [dict_add dict_get]; auto.
  destruct (beq k k') eqn:E.
  - apply beq_eq in E. subst k'. cbn [dict_get]. destruct (beq q k); auto.
  - destruct (bytes_lt k k') eqn:L; cbn [dict_get]; auto.
    rewrite IH. destruct (beq q k') eqn:E1; auto.
    destruct (beq q k) eqn:E2; auto. apply beq_eq in E1. apply beq_eq in E2. subst. rewrite beq_refl in E. discriminate.
Qed.

Lemma dict_ext (d : dict) : forall e, sorted d -> sorted e -> (forall q, dict_get q d = dict_get q e) -> d = e.
Proof.
  induction d as [|[k v] d IH]; intros [|[k' v'] e] Hd He H; auto.
  - specialize (H k'). cbn in H. rewrite beq_refl in H. discriminate.
  - specialize (H k). cbn in H. rewrite beq_refl in H. discriminate.
  - inversion Hd as [|? ? Hd1 Hd2]; inversion He as [|? ? He1 He2]; subst.
    assert (k = k').
    { destruct (beq k k') eqn:E; [apply beq_eq; auto|]. exfalso.
      destruct (bytes_lt k k') eqn:L.
      - specialize (H k). cbn [dict_get] in H. rewrite beq_refl, E in H.
        rewrite dict_get_lt in H; [discriminate|]. eapply Forall_impl; [|exact He2].
        intros p Hp. unfold klt in Hp. cbn [fst] in Hp. eapply bytes_lt_trans; eauto.
      - apply bytes_lt_total in L; auto. specialize (H k'). cbn [dict_get] in H. rewrite beq_refl in H.
        assert (E' : beq k' k = false) by (apply beq_neq; intro; subst; rewrite beq_refl in E; discriminate).
        rewrite E' in H. rewrite dict_get_lt in H; [discriminate|]. eapply Forall_impl; [|exact Hd2].
        intros p Hp. unfold klt in Hp. cbn [fst] in Hp. eapply bytes_lt_trans; eauto. }
    subst k'. assert (v = v').
    { specialize (H k). cbn in H. rewrite beq_refl in H. congruence. }
    subst v'. f_equal. apply IH; auto. intro q. specialize (H q). cbn in H.
    destruct (beq q k) eqn:E; auto. apply beq_eq in E. subst q.
    rewrite (dict_get_lt k d), (dict_get_lt k e); auto; eapply Forall_impl; eauto; intros p Hp; exact Hp.
Qed.

Lemma sorted_nodup d : sorted d -> NoDup (map fst d).
Proof.
  induction 1 as [|[k v] d Hd IH Hf]; cbn; constructor; auto.
  intro Hi. apply in_map_iff in Hi. destruct Hi as ([k' v'] & Hk & Hi). cbn in Hk. subst k'.
  rewrite Forall_forall in Hf. specialize (Hf _ Hi). unfold klt in Hf. cbn in Hf. rewrite bytes_lt_irrefl in Hf. discriminate.
Qed.

Lemma dict_get_in k (d : dict) v : NoDup (map fst d) -> (dict_get k d = Some v <-> In (k, v) d).
Proof.
  induction d as [|[k' v'] d IH]; cbn; intro Hn; [split; [discriminate|tauto]|].
  inversion Hn; subst. destruct (beq k k') eqn:E.
  - apply beq_eq in E. subst k'. split.
    + intro H. inversion H. auto.
    + intros [H|H]; [inversion H; auto|]. exfalso. apply H1. apply in_map_iff. exists (k, v). auto.
  - rewrite IH by auto. split; auto. intros [H|H]; auto. inversion H; subst. rewrite beq_refl in E. discriminate.
Qed.

Lemma dict_get_perm k (d e : dict) : NoDup (map fst d) -> NoDup (map fst e) -> (forall p, In p d <-> In p e) ->
  dict_get k d = dict_get k e.
Proof.
  intros Hd He H. destruct (dict_get k d) as [v|] eqn:E1; destruct (dict_get k e) as [w|] eqn:E2; auto.
  - apply dict_get_in in E1; auto. apply H in E1. apply dict_get_in in E1; auto. congruence.
  - apply dict_get_in in E1; auto. apply H in E1. apply dict_get_in in E1; auto. congruence.
  - apply dict_get_in in E2; auto. apply H in E2. apply dict_get_in in E2; auto. congruence.
Qed.
End Dict.
