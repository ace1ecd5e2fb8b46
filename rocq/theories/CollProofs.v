(** Proofs about the model of indexed collections. *)
From Coq Require Import String.
From Verif Require Import Base TokModel OwnModel ListModel CollModel CollSpec.
Local Open Scope Z_scope.

(** The answer of the model to a request *)
Definition answer_of {A} (f : A -> answer) (o : out A) : option answer * coll :=
  (match fst o with Ok x => Some (f x) | Err e => Some (ARaise e) | _ => None end, snd o).
Definition spot_answer (p : spot) : answer := AItem (spot_ref p).
Definition run (look : ref -> option obj) (src : option obj) (make : obj -> res bool) (q : request) (c : coll) : option answer * coll :=
  match q with
  | RCount => answer_of AOut (count look src make c)
  | RAt i => answer_of spot_answer (get_at look src make i c)
  | RGet r => answer_of spot_answer (get look src make r c)
  | RRemoveAt i => answer_of (fun _ => ADone) (remove_at look src make i c)
  | RRemove r => answer_of (fun _ => ADone) (remove look src make r c)
  | RAdd r => answer_of (fun _ => ADone) (add look src make r c)
  end.
Fixpoint runs (look : ref -> option obj) (src : option obj) (make : obj -> res bool) (qs : list request) (c : coll) : list (option answer) * coll :=
  match qs with
  | [] => ([], c)
  | q :: t => let (a, c) := run look src make q c in let (r, c) := runs look src make t c in (a :: r, c)
  end.

Lemma ref_eqb_eq a b : ref_eqb a b = true <-> a = b.
Proof. unfold ref_eqb. destruct a, b; cbn. rewrite andb_true_iff, !Z.eqb_eq. split; [intros [-> ->]; auto|intro E; injection E as -> ->; auto]. Qed.
Lemma ref_eqb_refl a : ref_eqb a a = true. Proof. apply ref_eqb_eq; reflexivity. Qed.
Lemma ref_eqb_neq a b : ref_eqb a b = false <-> a <> b.
Proof. rewrite <- ref_eqb_eq. destruct (ref_eqb a b); split; congruence. Qed.

(** ** Maps *)
Lemma find_put r i q m : map_find q (map_put r i m) = if ref_eqb r q then Some i else map_find q m.
Proof.
  induction m as [|[k j] m IH]; cbn; [destruct (ref_eqb r q); reflexivity|].
  destruct (ref_eqb k r) eqn:K; cbn.
  - apply ref_eqb_eq in K; subst k. destruct (ref_eqb r q); reflexivity.
  - rewrite IH. destruct (ref_eqb k q) eqn:Q; [|reflexivity]. apply ref_eqb_eq in Q; subst k.
    apply ref_eqb_neq in K. destruct (ref_eqb r q) eqn:R; [apply ref_eqb_eq in R; congruence|reflexivity].
Qed.
Lemma find_none_in r m : map_find r m = None <-> ~ In r (map fst m).
Proof.
  induction m as [|[k j] m IH]; cbn; [tauto|]. destruct (ref_eqb k r) eqn:K.
  - apply ref_eqb_eq in K. split; [discriminate|]. tauto.
  - apply ref_eqb_neq in K. rewrite IH. tauto.
Qed.
Lemma put_keys r i m : NoDup (map fst m) -> NoDup (map fst (map_put r i m)).
Proof.
  induction m as [|[k j] m IH]; cbn; [constructor; [intros []|constructor]|]. intro N; inversion N; subst.
  destruct (ref_eqb k r) eqn:K; cbn; constructor; auto.
  apply find_none_in. rewrite find_put.
  destruct (ref_eqb r k) eqn:R; [apply ref_eqb_eq in R; subst; rewrite ref_eqb_refl in K; discriminate|].
  apply find_none_in; assumption.
Qed.
Lemma find_erase r q m : NoDup (map fst m) -> map_find q (map_erase r m) = if ref_eqb r q then None else map_find q m.
Proof.
  induction m as [|[k j] m IH]; cbn; intro N; [destruct (ref_eqb r q); reflexivity|]. inversion N; subst.
  destruct (ref_eqb k r) eqn:K; cbn.
  - apply ref_eqb_eq in K; subst k. destruct (ref_eqb r q) eqn:R; [|reflexivity]. apply ref_eqb_eq in R; subst q.
    apply find_none_in; assumption.
  - rewrite IH by assumption. destruct (ref_eqb k q) eqn:Q; [|reflexivity]. apply ref_eqb_eq in Q; subst q.
    apply ref_eqb_neq in K. destruct (ref_eqb r k) eqn:R; [apply ref_eqb_eq in R; congruence|reflexivity].
Qed.
Lemma erase_keys r m : NoDup (map fst m) -> NoDup (map fst (map_erase r m)).
Proof.
  induction m as [|[k j] m IH]; cbn; intro N; [constructor|]. inversion N; subst.
  destruct (ref_eqb k r) eqn:K; cbn; [assumption|]. constructor; auto.
  apply find_none_in. rewrite find_erase by assumption. destruct (ref_eqb r k); [reflexivity|]. apply find_none_in; assumption.
Qed.
Lemma find_fix i q m : map_find q (fix_indices i m) = match map_find q m with Some j => Some (if i <? j then j - 1 else j) | None => None end.
Proof. induction m as [|[k j] m IH]; cbn; [reflexivity|]. destruct (ref_eqb k q); auto. Qed.
Lemma fix_keys i m : map fst (fix_indices i m) = map fst m.
Proof. unfold fix_indices. rewrite map_map. reflexivity. Qed.

(** ** Lists *)
Fixpoint index (r : ref) (l : list ref) : option nat :=
  match l with
  | [] => None
  | q :: t => if ref_eqb q r then Some 0%nat else match index r t with Some n => Some (S n) | None => None end
  end.
Lemma index_none r l : index r l = None <-> ~ In r l.
Proof.
  induction l as [|q l IH]; cbn; [tauto|]. destruct (ref_eqb q r) eqn:Q.
  - apply ref_eqb_eq in Q. split; [discriminate|tauto].
  - apply ref_eqb_neq in Q. destruct (index r l); [split; [discriminate|intro F; exfalso]|]; [|split; [|reflexivity]].
    + apply F. right. destruct (in_dec (fun a b : ref => ltac:(decide equality; apply Z.eq_dec)) r l) as [K|K]; [exact K|]. apply IH in K. discriminate.
    + intros _ [E|E]; [auto|]. apply IH in E; [destruct E|reflexivity].
Qed.
Lemma index_at r a b : ~ In r a -> index r (a ++ r :: b) = Some (length a).
Proof.
  induction a as [|q a IH]; cbn; intro N; [rewrite ref_eqb_refl; reflexivity|].
  destruct (ref_eqb q r) eqn:Q; [apply ref_eqb_eq in Q; tauto|]. rewrite IH by tauto. reflexivity.
Qed.
Lemma index_app r a b : index r (a ++ b) = match index r a with Some n => Some n | None => match index r b with Some n => Some (length a + n)%nat | None => None end end.
Proof.
  induction a as [|q a IH]; cbn; [destruct (index r b); reflexivity|]. destruct (ref_eqb q r); [reflexivity|]. rewrite IH.
  destruct (index r a); [reflexivity|]. destruct (index r b); reflexivity.
Qed.
Lemma index_lt r l n : index r l = Some n -> (n < length l)%nat.
Proof.
  revert n; induction l as [|q l IH]; cbn; intros n E; [discriminate|]. destruct (ref_eqb q r); [injection E as <-; lia|].
  destruct (index r l) as [k|]; [|discriminate]. injection E as <-. specialize (IH k eq_refl). lia.
Qed.
Lemma index_nth r l n : index r l = Some n -> nth_error l n = Some r.
Proof.
  revert n; induction l as [|q l IH]; cbn; intros n E; [discriminate|]. destruct (ref_eqb q r) eqn:Q; [injection E as <-; apply ref_eqb_eq in Q; subst; reflexivity|].
  destruct (index r l) as [k|]; [|discriminate]. injection E as <-. exact (IH k eq_refl).
Qed.
Lemma erase_mid {A} (a : list A) x b : erase_at (length a) (a ++ x :: b) = a ++ b.
Proof.
  unfold erase_at. rewrite firstn_app, firstn_all, Nat.sub_diag. cbn [firstn]. rewrite app_nil_r. f_equal.
  rewrite skipn_app, skipn_all2 by lia. replace (S (length a) - length a)%nat with 1%nat by lia. reflexivity.
Qed.

(** ** The invariant: the three parts say the same list *)
Definition shows (c : coll) (l : list ref) : Prop :=
  exists m, imap c = Some m /\ NoDup (map fst m) /\
    (forall r, map_find r m = option_map Z.of_nat (index r l)) /\
    items c = map (fun r => Some (SObj r)) l /\
    (match arr c with Some a => a = ref_elements l | None => l = [] end).

Section S.
Variable look : ref -> option obj.
Variable src : option obj.
Variable make : obj -> res bool.
Notation run := (run look src make).
Lemma init_again c l : shows c l -> init look src make c = (Ok tt, c).
Proof. intros (m & E & _). unfold init. rewrite E. reflexivity. Qed.
Lemma with_init_again {A} c l (k : coll -> out A) : shows c l -> with_init look src make c k = k c.
Proof. intro H. unfold with_init. rewrite (init_again c l H). reflexivity. Qed.

Lemma cut_shows a r b c m : NoDup (a ++ r :: b) -> shows c (a ++ r :: b) -> imap c = Some m ->
  exists c', cut (length a) (map_erase r m) c = (Ok tt, c') /\ shows c' (a ++ b).
Proof.
  intros N (m' & E & K & F & I & R) E2. rewrite E in E2; injection E2 as <-. unfold cut.
  destruct (arr c) as [x|] eqn:X; [|destruct a; discriminate R].
  assert (L : length x = length (a ++ r :: b)) by (subst x; unfold ref_elements; apply map_length).
  rewrite app_length in L; cbn in L. destruct (Nat.leb_spec (length x) (length a)); [lia|].
  eexists; split; [reflexivity|]. eexists; cbn; split; [reflexivity|]. split; [rewrite fix_keys; apply erase_keys, K|]. split.
  - intro q. rewrite find_fix, find_erase by exact K. rewrite F.
    assert (NA : ~ In r a /\ ~ In r b). { apply NoDup_remove_2 in N. rewrite in_app_iff in N. tauto. }
    destruct (ref_eqb r q) eqn:Q.
    + apply ref_eqb_eq in Q; subst q. assert (Z0 : index r (a ++ b) = None) by (apply index_none; rewrite in_app_iff; tauto). rewrite Z0. reflexivity.
    + rewrite !index_app. cbn [index]. rewrite Q. destruct (index q a) as [n|] eqn:IA; cbn [option_map].
      * apply index_lt in IA. destruct (Z.ltb_spec (Z.of_nat (length a)) (Z.of_nat n)); [lia|reflexivity].
      * destruct (index q b) as [n|]; cbn [option_map]; [|reflexivity].
        destruct (Z.ltb_spec (Z.of_nat (length a)) (Z.of_nat (length a + S n))); [f_equal; lia|lia].
  - rewrite I, R. unfold ref_elements. rewrite !map_app. cbn [map].
    split; [rewrite <- (map_length (fun r => Some (SObj r)) a) at 1; apply erase_mid|].
    rewrite <- (map_length (fun r : ref => ORef (fst r) (snd r)) a) at 1. apply erase_mid.
Qed.

Lemma step c l q a l' : NoDup l -> shows c l -> behaves l q a l' -> (forall r, q = RAdd r -> ~ In r l) ->
  exists c', run q c = (Some a, c') /\ shows c' l' /\ NoDup l'.
Proof.
  intros N H B FR. pose proof H as (m & E & K & F & I & R).
  assert (LI : length (items c) = length l) by (rewrite I; apply map_length).
  inversion B; subst; cbn [CollProofs.run]; unfold answer_of.
  - unfold count. rewrite (with_init_again c l' _ H). cbn. rewrite LI. eauto.
  - unfold get_at. rewrite (with_init_again c _ _ H). rewrite LI, app_length. cbn [length].
    destruct (Nat.leb_spec (length a0 + S (length b)) (length a0)); [lia|]. rewrite I, map_app, nth_error_app2 by (rewrite map_length; lia).
    rewrite map_length, Nat.sub_diag. cbn. eauto.
  - unfold get_at. rewrite (with_init_again c _ _ H). rewrite LI. destruct (Nat.leb_spec (length l') i); [|lia]. cbn. eauto.
  - unfold get. rewrite (with_init_again c _ _ H). rewrite E, F. destruct (index r l') as [n|] eqn:X; [|apply index_none in X; tauto].
    cbn [option_map]. rewrite Nat2Z.id, I. rewrite (map_nth_error _ _ _ (index_nth _ _ _ X)). cbn. eauto.
  - unfold get. rewrite (with_init_again c _ _ H). rewrite E, F. apply index_none in H0. rewrite H0. cbn. eauto.
  - unfold remove_at. rewrite (with_init_again c _ _ H). rewrite LI, app_length. cbn [length].
    destruct (Nat.leb_spec (length a0 + S (length b)) (length a0)); [lia|]. rewrite E, I, map_app, nth_error_app2 by (rewrite map_length; lia).
    rewrite map_length, Nat.sub_diag. cbn [nth_error map used spot_ref]. rewrite F.
    assert (NA : ~ In r a0) by (apply NoDup_remove_2 in N; rewrite in_app_iff in N; tauto).
    rewrite index_at by exact NA. cbn [option_map].
    destruct (cut_shows a0 r b c m N H E) as (c' & C & S'). rewrite C. cbn. exists c'. split; [reflexivity|]. split; [exact S'|]. apply NoDup_remove_1 in N. exact N.
  - unfold remove_at. rewrite (with_init_again c _ _ H). rewrite LI. destruct (Nat.leb_spec (length l') i); [|lia]. cbn. eauto.
  - unfold remove. rewrite (with_init_again c _ _ H). rewrite E, F.
    assert (NA : ~ In r a0) by (apply NoDup_remove_2 in N; rewrite in_app_iff in N; tauto).
    rewrite index_at by exact NA. cbn [option_map]. rewrite Nat2Z.id, LI, app_length. cbn [length].
    destruct (Nat.leb_spec (length a0 + S (length b)) (length a0)); [lia|].
    destruct (arr c) as [x|] eqn:X; [|destruct a0; discriminate R].
    assert (L : length x = length (a0 ++ r :: b)) by (subst x; unfold ref_elements; apply map_length).
    rewrite app_length in L; cbn in L. destruct (Nat.leb_spec (length x) (length a0)); [lia|].
    destruct (cut_shows a0 r b c m N H E) as (c' & C & S'). rewrite C. cbn. exists c'. split; [reflexivity|]. split; [exact S'|]. apply NoDup_remove_1 in N. exact N.
  - unfold remove. rewrite (with_init_again c _ _ H). rewrite E, F. apply index_none in H0. rewrite H0. cbn. eauto.
  - unfold add. rewrite (with_init_again c _ _ H). rewrite E. cbn [fst snd]. specialize (FR r eq_refl).
    assert (A : match arr c with Some x => x | None => [] end = ref_elements l) by (destruct (arr c); [exact R|subst l; reflexivity]).
    rewrite A. eexists. split; [reflexivity|]. split.
    + eexists. cbn. split; [reflexivity|]. split; [apply put_keys, K|]. split; [|split].
      * intro q. rewrite find_put, F, index_app. unfold ref_elements. rewrite map_length. cbn [index].
        destruct (ref_eqb r q) eqn:Q; [apply ref_eqb_eq in Q; subst q|].
        -- rewrite (proj2 (index_none r l) FR). cbn. rewrite Nat.add_0_r. reflexivity.
        -- destruct (index q l); reflexivity.
      * rewrite I, map_app. reflexivity.
      * unfold ref_elements. rewrite map_app. reflexivity.
    + apply NoDup_rev in N. rewrite <- (rev_involutive (l ++ [r])). apply NoDup_rev. rewrite rev_app_distr. cbn. constructor; [rewrite <- in_rev; exact FR|exact N].
Qed.

(** ** Reading the array *)
Definition good (r : ref) : Prop := r <> (0, 0) /\ exists v, look r = Some v /\ make v = Ok true.
Lemma good_resolve r i : r <> (0, 0) -> forall v, look r = Some v -> resolve look (ORef (fst r) (snd r)) i = (SObj r, v).
Proof.
  destruct r as [n g]. cbn. intros N v L.
  destruct (Z.eqb_spec n 0), (Z.eqb_spec g 0); cbn [andb]; try (rewrite L; reflexivity). subst. destruct (N eq_refl).
Qed.
Lemma fill_good t : forall l m its, NoDup (l ++ t) -> Forall good t -> NoDup (map fst m) ->
  (forall r, map_find r m = option_map Z.of_nat (index r l)) -> its = map (fun r => Some (SObj r)) l ->
  forall e, exists m', fill look make (ref_elements t ++ e) (length l) m its
      = fill look make e (length (l ++ t)) m' (map (fun r => Some (SObj r)) (l ++ t)) /\
    NoDup (map fst m') /\ (forall r, map_find r m' = option_map Z.of_nat (index r (l ++ t))).
Proof.
  induction t as [|r t IH]; intros l m its N G K F I e.
  - exists m. cbn. rewrite app_nil_r in *. subst its. auto.
  - inversion G as [|? ? (Z0 & v & L & M) G']; subst. cbn [ref_elements map app fill].
    rewrite (good_resolve r _ Z0 v L), M.
    assert (A : l ++ r :: t = (l ++ [r]) ++ t) by (rewrite <- app_assoc; reflexivity).
    assert (NR : ~ In r l) by (apply NoDup_remove_2 in N; rewrite in_app_iff in N; tauto).
    rewrite A in N.
    destruct (IH (l ++ [r]) (map_put r (Z.of_nat (length l)) m) (map (fun r => Some (SObj r)) l ++ [Some (SObj r)]) N G' (put_keys _ _ _ K)) with (e := e) as (m' & E & K' & F').
    + intro q. rewrite find_put, F, index_app. cbn [index]. destruct (ref_eqb r q) eqn:Q; [apply ref_eqb_eq in Q; subst q|].
      * rewrite (proj2 (index_none r l) NR). cbn. rewrite Nat.add_0_r. reflexivity.
      * destruct (index q l); reflexivity.
    + rewrite map_app. reflexivity.
    + exists m'. rewrite A. split; [|auto]. rewrite <- E. cbn [spot_ref]. f_equal. rewrite app_length. cbn. lia.
Qed.
Lemma init_good l : NoDup l -> Forall good l -> src = Some (OArr (ref_elements l)) -> exists c, init look src make fresh = (Ok tt, c) /\ shows c l.
Proof.
  intros N G E. unfold init. cbn [imap fresh]. rewrite E.
  destruct (fill_good l [] [] [] N G (NoDup_nil _) (fun _ => eq_refl) eq_refl []) as (m' & X & K & F).
  rewrite app_nil_r in X. cbn [app length] in X. cbn [items fresh]. rewrite X. cbn [fill].
  eexists. split; [reflexivity|]. exists m'. cbn. auto.
Qed.
Lemma init_none : src = None -> exists c, init look src make fresh = (Ok tt, c) /\ shows c [].
Proof. intro E. unfold init. cbn. rewrite E. eexists. split; [reflexivity|]. exists []. cbn. split; [reflexivity|]. split; [constructor|]. auto. Qed.
(** The first request reads the array *)
Lemma run_fresh q c : init look src make fresh = (Ok tt, c) -> (exists m, imap c = Some m) -> run q fresh = run q c.
Proof.
  intros H (m & M). assert (A : init look src make c = (Ok tt, c)) by (unfold init; rewrite M; reflexivity).
  destruct q; cbn; unfold count, get_at, get, remove_at, remove, add, with_init; rewrite H, A; reflexivity.
Qed.
End S.
