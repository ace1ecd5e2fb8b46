(** Page trees: histories with the cache, hostile trees, page numbers, inherited resources *)
From Coq Require Import String.
From Verif Require Import Base ChainProofs TokModel DictProofs OwnModel ListModel PageModel PageSpec PageProofs PageOpProofs PageDelProofs.
Local Open Scope Z_scope.
Local Notation dict := (list (list Z * obj)) (only parsing).
Local Notation kids_of ks := (map (fun k => ptr (tref k)) ks).

(** ** The cache *)
Lemma nth_repeat_none {A} n i : nth i (repeat (@None A) n) None = None.
Proof. revert i; induction n as [|n IH]; intros [|i]; cbn; auto. Qed.
Lemma nth_resize n (c : cache) i : nth i (resize n c) None = if (i <? n)%nat then nth i c None else None.
Proof.
  unfold resize. destruct (Nat.ltb_spec i n) as [L|L].
  - destruct (Nat.lt_ge_cases i (length c)) as [M|M].
    + rewrite app_nth1 by (rewrite firstn_length; lia). revert n L c M. induction i as [|i IH]; intros [|n] L [|x c] M; cbn in *; try lia; auto. apply IH; lia.
    + rewrite app_nth2 by (rewrite firstn_length; lia). rewrite nth_repeat_none. symmetry. apply nth_overflow. exact M.
  - destruct (Nat.lt_ge_cases i (length (firstn n c))) as [M|M]; [rewrite firstn_length in M; lia|].
    rewrite app_nth2 by exact M. apply nth_repeat_none.
Qed.
Lemma resize_length n (c : cache) : length (resize n c) = n.
Proof. unfold resize. rewrite app_length, firstn_length, repeat_length. lia. Qed.
Lemma nth_put i p : forall (c : cache) j, (i < length c)%nat -> nth j (put_nth i p c) None = if Nat.eqb j i then p else nth j c None.
Proof.
  induction i as [|i IH]; intros [|x c] j L; cbn in *; try lia; [destruct j; reflexivity|]. destruct j as [|j]; [reflexivity|]. cbn. apply IH. lia.
Qed.
Lemma put_length i p : forall (c : cache), length (put_nth i p c) = length c.
Proof. induction i as [|i IH]; intros [|x c]; cbn; auto. Qed.
Lemma cached_page c i p j : 0 <= i -> 0 <= j -> cached (cache_page c i p) j = if j =? i then Some p else cached c j.
Proof.
  intros I J. unfold cached, cache_page. destruct (Z.leb_spec (Z.of_nat (length c)) i) as [L|L]; cbv zeta.
  - rewrite nth_put by (rewrite resize_length; lia). rewrite nth_resize. destruct (Z.eqb_spec j i) as [->|N].
    + rewrite Nat.eqb_refl. reflexivity.
    + destruct (Nat.eqb_spec (Z.to_nat j) (Z.to_nat i)); [lia|]. destruct (Nat.ltb_spec (Z.to_nat j) (Z.to_nat (i + 1))); [reflexivity|].
      symmetry. apply nth_overflow. lia.
  - rewrite nth_put by lia. destruct (Z.eqb_spec j i) as [->|N]; [rewrite Nat.eqb_refl; reflexivity|].
    destruct (Nat.eqb_spec (Z.to_nat j) (Z.to_nat i)); [lia|reflexivity].
Qed.
Lemma nth_ins {A} (d : A) i n (x : A) : forall c j, (i <= length c)%nat ->
  nth j (firstn i c ++ repeat x n ++ skipn i c) d = if (j <? i)%nat then nth j c d else if (j <? i + n)%nat then x else nth (j - n) c d.
Proof.
  induction i as [|i IH]; intros c j L.
  - cbn [firstn skipn app Nat.ltb]. destruct (Nat.ltb_spec j 0); [lia|]. cbn [plus]. destruct (Nat.ltb_spec j n) as [M|M].
    + rewrite app_nth1 by (rewrite repeat_length; exact M). clear - M. revert j M; induction n as [|n IH]; intros [|j] M; cbn; try lia; auto. apply IH. lia.
    + rewrite app_nth2 by (rewrite repeat_length; exact M). rewrite repeat_length. reflexivity.
  - destruct c as [|y c]; [cbn in L; lia|]. cbn [firstn skipn app]. destruct j as [|j]; [reflexivity|]. cbn [nth]. rewrite IH by (cbn in L; lia).
    change (S j <? S i)%nat with (j <? i)%nat. change (S j <? S i + n)%nat with (j <? i + n)%nat. destruct (Nat.ltb_spec j i); [reflexivity|].
    destruct (Nat.ltb_spec j (i + n)); [reflexivity|]. replace (S j - n)%nat with (S (j - n)) by lia. reflexivity.
Qed.
Lemma cached_holders c i n j : 0 <= i -> 0 <= j -> cached (place_holders c i n) j =
  if j <? i then cached c j else if j <? i + Z.of_nat n then None else cached c (j - Z.of_nat n).
Proof.
  intros I J. unfold cached, place_holders. cbv zeta. rewrite nth_ins.
  2:{ destruct (Z.leb_spec (Z.of_nat (length c)) i); [rewrite resize_length; lia|lia]. }
  destruct (Nat.ltb_spec (Z.to_nat j) (Z.to_nat i)), (Z.ltb_spec j i); try lia.
  - destruct (Z.leb_spec (Z.of_nat (length c)) i); [|reflexivity]. rewrite nth_resize. destruct (Nat.ltb_spec (Z.to_nat j) (Z.to_nat i)); [reflexivity|lia].
  - destruct (Nat.ltb_spec (Z.to_nat j) (Z.to_nat i + n)), (Z.ltb_spec j (i + Z.of_nat n)); try lia; [reflexivity|].
    replace (Z.to_nat (j - Z.of_nat n)) with (Z.to_nat j - n)%nat by lia.
    destruct (Z.leb_spec (Z.of_nat (length c)) i); [|reflexivity]. rewrite nth_resize. destruct (Nat.ltb_spec (Z.to_nat j - n) (Z.to_nat i)); [reflexivity|].
    symmetry. apply nth_overflow. lia.
Qed.
Lemma nth_erase {A} (d : A) i : forall c j, nth j (erase_nth i c) d = if (j <? i)%nat then nth j c d else nth (S j) c d.
Proof.
  induction i as [|i IH]; intros c j.
  - destruct c as [|x c]; [destruct j; reflexivity|]. destruct j; reflexivity.
  - destruct c as [|x c]; [destruct (Nat.ltb j (S i)); destruct j; reflexivity|]. destruct j as [|j]; [reflexivity|]. cbn [erase_nth nth]. rewrite IH.
    change (S j <? S i)%nat with (j <? i)%nat. destruct (Nat.ltb j i); reflexivity.
Qed.
Lemma cached_uncache c i j : 0 <= i -> 0 <= j -> cached (uncache c i) j = if j <? i then cached c j else cached c (j + 1).
Proof.
  intros I J. unfold cached, uncache. destruct (Z.leb_spec (Z.of_nat (length c)) i).
  - destruct (Z.ltb_spec j i); [reflexivity|]. rewrite !nth_overflow by lia. reflexivity.
  - rewrite nth_erase. destruct (Nat.ltb_spec (Z.to_nat j) (Z.to_nat i)), (Z.ltb_spec j i); try lia; [reflexivity|]. replace (Z.to_nat (j + 1)) with (S (Z.to_nat j)) by lia. reflexivity.
Qed.

(** ** Lists *)
Lemma nth_insert {A} k (ps l : list A) j : (k <= length l)%nat -> nth_error (insert_at k ps l) j =
  if (j <? k)%nat then nth_error l j else if (j <? k + length ps)%nat then nth_error ps (j - k) else nth_error l (j - length ps).
Proof.
  intros L. unfold insert_at. assert (LF : length (firstn k l) = k) by (rewrite firstn_length; lia).
  destruct (Nat.ltb_spec j k) as [M|M].
  - rewrite nth_error_app1 by lia. clear - M. revert k l M; induction j as [|j IH]; intros [|k] [|x l] M; cbn; try lia; auto. apply IH. lia.
  - rewrite nth_error_app2 by lia. rewrite LF. destruct (Nat.ltb_spec j (k + length ps)) as [N|N].
    + rewrite nth_error_app1 by lia. reflexivity.
    + rewrite nth_error_app2 by lia. assert (SK : forall k (l : list A) m, nth_error (skipn k l) m = nth_error l (k + m)).
      { clear. induction k as [|k IH]; intros l m; [reflexivity|]. destruct l; [destruct m; reflexivity|]. cbn. apply IH. }
      rewrite SK. f_equal. lia.
Qed.
Lemma nth_remove {A} k (l : list A) j : nth_error (remove_at k l) j = if (j <? k)%nat then nth_error l j else nth_error l (S j).
Proof.
  unfold remove_at. revert k j; induction l as [|x l IH]; intros [|k] [|j]; try reflexivity.
  - cbn [firstn skipn app]. destruct (Nat.ltb (S j) (S k)); reflexivity.
  - cbn [firstn skipn app nth_error]. change (S (S k)) with (S (S k)). change (skipn (S (S k)) (x :: l)) with (skipn (S k) l). rewrite IH.
    change (S j <? S k)%nat with (j <? k)%nat. destruct (Nat.ltb j k); reflexivity.
Qed.
Lemma insert_length {A} k (ps l : list A) : length (insert_at k ps l) = (length l + length ps)%nat.
Proof. unfold insert_at. rewrite !app_length, firstn_length, skipn_length. lia. Qed.
Lemma remove_length {A} k (l : list A) : (length (remove_at k l) <= length l)%nat.
Proof. unfold remove_at. rewrite !app_length, firstn_length, skipn_length. lia. Qed.
Lemma remove_out {A} k (l : list A) : (length l <= k)%nat -> remove_at k l = l.
Proof. intros L. unfold remove_at. rewrite firstn_all2, skipn_all2 by lia. apply app_nil_r. Qed.

(** ** The invariant *)
Definition cache_ok (c : cache) (l : list ref) : Prop := forall i p, 0 <= i -> cached c i = Some p -> nth_error l (Z.to_nat i) = Some (fst p).
Definition good (s : pages) (l : list ref) : Prop :=
  doc_pages (pmax s) (pheap s) (proot s) l /\ Z.of_nat (length l) < 2 ^ 31 /\ cache_ok (pcache s) l.
Lemma cache_new n l : cache_ok (new_cache n) l.
Proof. intros i p I. unfold cached, new_cache. destruct (n <? 2 ^ 20); [rewrite nth_repeat_none|destruct (Z.to_nat i)]; discriminate. Qed.

Lemma nth_error_in_range {A} (l : list A) i : 0 <= i -> match nth_error l (Z.to_nat i) with Some _ => i < Z.of_nat (length l) | None => Z.of_nat (length l) <= i end.
Proof.
  intros I. destruct (nth_error l (Z.to_nat i)) eqn:E; [apply nth_error_Some_lt in E || (assert (Z.to_nat i < length l)%nat by (apply nth_error_Some; congruence)); lia|].
  apply nth_error_None in E. lia.
Qed.
Lemma get_ok s l i : good s l -> 0 <= i -> exists s', good s' l /\ pheap s' = pheap s /\ proot s' = proot s /\ pmax s' = pmax s /\
  match nth_error l (Z.to_nat i) with
  | Some r => exists j, get_page s i = (Ok (r, j), s')
  | None => get_page s i = (Err EPageNotFound, s')
  end.
Proof.
  intros (DP & B & C) I. unfold get_page. destruct (cached (pcache s) i) as [[r j]|] eqn:E.
  - exists s. pose proof (C i _ I E) as X. cbn [fst] in X. rewrite X. repeat split; eauto.
  - destruct DP as (t & PT & LV & D). pose proof (nth_error_in_range l i I) as X. destruct (nth_error l (Z.to_nat i)) as [r|] eqn:NE.
    + subst l. destruct (find_page (pmax s) (pheap s) (proot s) t i PT D ltac:(lia) B) as (gs & f & x & ET & BF & LV' & PN). rewrite PN.
      assert (r = x) as ->.
      { rewrite LV' in NE. replace (Z.to_nat i) with (length (before (gs ++ [f]))) in NE by lia. rewrite nth_error_app2, Nat.sub_diag in NE by lia. cbn in NE. congruence. }
      eexists. split; [|split; [|split; [|split; [|exists i; reflexivity]]]]; try reflexivity. split; [exists t; auto|]. split; [exact B|].
      cbn [with_cache pcache]. intros j p J. rewrite cached_page by assumption. destruct (Z.eqb_spec j i) as [->|N]; [intros [= <-]; exact NE|apply C, J].
    + subst l. destruct (page_root _ _ _ PT) as (a & ks & d & -> & _ & H). rewrite (node_find_none (pheap s) None (proot s) a ks (pmax s) [] i H D B X).
      exists s. repeat split; eauto. exists (Node (proot s) a ks). auto.
Qed.
Lemma count_ok s l : good s l -> page_count s = Ok (Z.of_nat (length l)).
Proof. intros ((t & PT & <- & D) & B & _). unfold page_count. apply count_root; assumption. Qed.
Lemma get_at_ok s l i : good s l -> 0 <= i -> exists s', good s' l /\ pheap s' = pheap s /\
  match nth_error l (Z.to_nat i) with
  | Some r => exists j, get_page_at s i = (Ok (r, j), s')
  | None => get_page_at s i = (Err EPageNotFound, s')
  end.
Proof.
  intros G I. unfold get_page_at. rewrite (count_ok s l G). pose proof (nth_error_in_range l i I) as X. destruct (nth_error l (Z.to_nat i)) as [r|] eqn:NE.
  - destruct (Z.leb_spec (Z.of_nat (length l)) i); [lia|]. destruct (get_ok s l i G I) as (s' & G' & P & _ & _ & R). rewrite NE in R. exists s'. auto.
  - destruct (Z.leb_spec (Z.of_nat (length l)) i); [|lia]. exists s. auto.
Qed.
Lemma find_ok r : forall k s l i, good s l -> 0 <= i -> i + Z.of_nat k = Z.of_nat (length l) ->
  exists s', good s' l /\ pheap s' = pheap s /\
    (if existsb (ref_eqb r) (skipn (Z.to_nat i) l) then exists j, get_page_from k s i r = (Ok (r, j), s') else get_page_from k s i r = (Err EPageNotFound, s')).
Proof.
  induction k as [|k IH]; intros s l i G I L.
  - exists s. split; [exact G|]. split; [reflexivity|]. rewrite skipn_all2 by lia. reflexivity.
  - destruct (get_ok s l i G I) as (s1 & G1 & P1 & _ & _ & R). pose proof (nth_error_in_range l i I) as X.
    destruct (nth_error l (Z.to_nat i)) as [q|] eqn:NE; [|lia]. destruct R as (j & R). cbn [get_page_from]. rewrite R. cbn [fst].
    assert (SK : skipn (Z.to_nat i) l = q :: skipn (Z.to_nat (i + 1)) l).
    { replace (Z.to_nat (i + 1)) with (S (Z.to_nat i)) by lia. clear - NE. revert l NE; induction (Z.to_nat i) as [|n IH]; intros [|x l] NE; cbn in *; try discriminate; [congruence|apply IH, NE]. }
    rewrite SK. cbn [existsb]. destruct (ref_eqb q r) eqn:QR.
    + apply ref_eqb_eq in QR. subst q. rewrite ref_eqb_refl. cbn [orb]. exists s1. eauto.
    + assert (ref_eqb r q = false) as -> by (apply ref_eqb_neq; apply ref_eqb_neq in QR; congruence). cbn [orb].
      destruct (IH s1 l (i + 1) G1 ltac:(lia) ltac:(lia)) as (s' & G' & P' & R'). exists s'. split; [exact G'|]. split; [congruence|exact R'].
Qed.
Lemma find_ref_ok s l r : good s l -> exists s', good s' l /\ pheap s' = pheap s /\
  (In r l -> exists j, get_page_ref s r = (Ok (r, j), s')) /\ (~ In r l -> get_page_ref s r = (Err EPageNotFound, s')).
Proof.
  intros G. unfold get_page_ref. rewrite (count_ok s l G). destruct (find_ok r (Z.to_nat (Z.of_nat (length l))) s l 0 G ltac:(lia) ltac:(lia)) as (s' & G' & P & R).
  change (skipn (Z.to_nat 0) l) with l in R. exists s'. split; [exact G'|]. split; [exact P|]. destruct (existsb (ref_eqb r) l) eqn:E; split; intros I.
  - exact R.
  - apply existsb_exists in E as (q & Q & X). apply ref_eqb_eq in X. subst q. elim (I Q).
  - assert (existsb (ref_eqb r) l = true) by (apply existsb_exists; exists r; split; [exact I|apply ref_eqb_refl]). congruence.
  - exact R.
Qed.

Lemma insert_good s l i ps : good s l -> 0 <= i -> insertable (pheap s) l ps ->
  exists s', insert_pages s i ps = Ok s' /\ good s' (insert_at (Nat.min (Z.to_nat i) (length l)) ps l) /\ pmax s' = pmax s /\ proot s' = proot s.
Proof.
  intros ((t & PT & <- & D) & B & C) I INS. pose proof INS as (_ & _ & _ & B').
  destruct (insert_ok (pmax s) (pheap s) (proot s) t i ps PT D INS I) as (h' & t' & R & PT' & LV & D' & _).
  unfold insert_pages. rewrite R. cbn [bind]. eexists. split; [reflexivity|]. split; [|split; reflexivity]. split; [exists t'; cbn; repeat split; try apply PT'; auto; lia|].
  split; [rewrite insert_length; exact B'|]. cbn [pcache]. intros j p J. 
  destruct (leaves t) as [|x0 xs] eqn:EL.
  - rewrite cached_holders by assumption. assert (NN : forall k, 0 <= k -> cached (pcache s) k = None).
    { intros k K. destruct (cached (pcache s) k) as [q|] eqn:E; [|reflexivity]. apply C in E; [|exact K]. destruct (Z.to_nat k); discriminate. }
    destruct (Z.ltb_spec j i); [rewrite NN by lia; discriminate|]. destruct (Z.ltb_spec j (i + Z.of_nat (length ps))); [discriminate|]. rewrite NN by lia. discriminate.
  - rewrite <- EL in *. rewrite cached_holders by lia. intros E. rewrite nth_insert by lia.
    set (n := length (leaves t)) in *.
    destruct (Z.ltb_spec j (Z.min i (Z.of_nat n))).
    + destruct (Nat.ltb_spec (Z.to_nat j) (Nat.min (Z.to_nat i) n)); [|lia]. apply C; assumption.
    + destruct (Z.ltb_spec j (Z.min i (Z.of_nat n) + Z.of_nat (length ps))); [discriminate|].
      destruct (Nat.ltb_spec (Z.to_nat j) (Nat.min (Z.to_nat i) n)); [lia|]. destruct (Nat.ltb_spec (Z.to_nat j) (Nat.min (Z.to_nat i) n + length ps)); [lia|].
      apply C in E; [|lia]. rewrite <- E. f_equal. lia.
Qed.
Lemma refs_some h up t q : holds h up t -> In q (refs t) -> exists v, h q = Some v /\ ~ scalar v.
Proof.
  intros H I. destruct (refs_kinds t h up q H I) as [L|[(d & E & _)|(l & E)]].
  - destruct (leaf_types t h up q H L) as (d & E & _). exists (ODict d). auto.
  - exists (ODict d). auto.
  - exists (OArr l). auto.
Qed.
Lemma other_tree h root t r o : page_tree h root t -> ~ In r (refs t) -> (forall v, h r = Some v -> ~ scalar v) -> page_tree (set r o h) root t.
Proof.
  intros (H & N & X) NR NS. split; [|split; [exact N|exact X]]. eapply holds_ext; [|apply keeps_set, NS|exact H]. intros q Q. apply set_other. congruence.
Qed.
Lemma other_good s l r o : good s l -> (forall t, page_tree (pheap s) (proot s) t -> ~ In r (refs t)) -> (forall v, pheap s r = Some v -> ~ scalar v) ->
  good (mk_pages (pmax s) (proot s) (set r o (pheap s)) (pcache s)) l.
Proof.
  intros ((t & PT & LV & D) & B & C) NR NS. split; [|split; [exact B|exact C]]. exists t. cbn. split; [apply other_tree; auto|auto].
Qed.
Lemma new_page_object box r h : page_object (set r (Some (new_page box)) h) r.
Proof.
  exists (add_key (bs "MediaBox") box (add_key (bs "Type") (OName (bs "Page")) [])). rewrite set_same. split; [reflexivity|].
  assert (sorted (dict_add (bs "Type") (OName (bs "Page")) [])) by (apply dict_add_sorted, sorted_nil). split; [apply dict_add_sorted; assumption|].
  left. unfold add_key. rewrite dict_get_add by assumption. reflexivity.
Qed.
Lemma create_good s l i r box : good s l -> 0 <= i -> pheap s r = None -> Z.of_nat (length l + 1) < 2 ^ 31 ->
  exists s', create_page_at s i r box = Ok s' /\ good s' (insert_at (Nat.min (Z.to_nat i) (length l)) [r] l) /\ pmax s' = pmax s /\ proot s' = proot s.
Proof.
  intros G I E B. unfold create_page_at. rewrite (count_ok s l G). cbn [bind].
  set (i' := if Z.of_nat (length l) <? i then Z.of_nat (length l) else i).
  assert (I' : i' = Z.min i (Z.of_nat (length l))) by (unfold i'; destruct (Z.ltb_spec (Z.of_nat (length l)) i); lia).
  assert (NR : forall t, page_tree (pheap s) (proot s) t -> ~ In r (refs t)).
  { intros t PT X. destruct (refs_some (pheap s) None t r (proj1 PT) X) as (v & V & _). congruence. }
  set (s1 := mk_pages (pmax s) (proot s) (set r (Some (new_page box)) (pheap s)) (pcache s)).
  assert (G1 : good s1 l) by (apply other_good; [exact G|exact NR|intros v V; congruence]).
  assert (NI : ~ In r l).
  { destruct G as ((t & PT & <- & _) & _). intros X. exact (NR t PT (leaf_in t r X)). }
  destruct (insert_good s1 l i' [r] G1 ltac:(lia)) as (s2 & R & G2 & X1 & X2).
  { split; [discriminate|]. split; [repeat constructor; auto|]. split; [|cbn [length]; lia]. constructor; [|constructor]. split; [apply new_page_object|exact NI]. }
  rewrite R. cbn [bind]. replace (Nat.min (Z.to_nat i') (length l)) with (Nat.min (Z.to_nat i) (length l)) in G2 by lia.
  eexists. split; [reflexivity|]. split; [|split; cbn; assumption]. destruct G2 as (DP & B2 & C2). split; [exact DP|]. split; [exact B2|]. cbn [pcache].
  intros j p J. rewrite cached_page by lia. destruct (Z.eqb_spec j i') as [->|N]; [|apply C2, J]. intros [= <-]. rewrite nth_insert by lia. cbn [length fst].
  destruct (Nat.ltb_spec (Z.to_nat i') (Nat.min (Z.to_nat i) (length l))); [lia|]. destruct (Nat.ltb_spec (Z.to_nat i') (Nat.min (Z.to_nat i) (length l) + 1)); [|lia].
  replace (Z.to_nat i' - Nat.min (Z.to_nat i) (length l))%nat with O by lia. reflexivity.
Qed.
Lemma remove_good s l i : good s l -> 0 <= i ->
  exists s', remove_page s i = (if i <? Z.of_nat (length l) then Ok tt else Err EPageNotFound, s') /\ good s' (remove_at (Z.to_nat i) l) /\ pmax s' = pmax s /\ proot s' = proot s.
Proof.
  intros ((t & PT & <- & D) & B & C) I. unfold remove_page.
  assert (CU : cache_ok (uncache (pcache s) i) (remove_at (Z.to_nat i) (leaves t))).
  { intros j p J. rewrite cached_uncache by assumption. rewrite nth_remove. destruct (Z.ltb_spec j i), (Nat.ltb_spec (Z.to_nat j) (Z.to_nat i)); try lia; intros E.
    - apply C; assumption.
    - apply C in E; [|lia]. rewrite <- E. f_equal. lia. }
  destruct (Z.ltb_spec i (Z.of_nat (length (leaves t)))) as [L|L].
  - destruct (remove_ok (pmax s) (pheap s) (proot s) t i PT D B ltac:(lia)) as (h' & t' & R & PT' & LV & D' & _). rewrite R.
    eexists. split; [reflexivity|]. split; [|split; reflexivity]. split; [exists t'; cbn; split; [exact PT'|split; [exact LV|lia]]|]. split; [|exact CU].
    pose proof (remove_length (Z.to_nat i) (leaves t)). lia.
  - assert (remove_page_at (pmax s) (proot s) (pheap s) i = Err EPageNotFound) as ->.
    { unfold remove_page_at. destruct (page_root _ _ _ PT) as (a & ks & d & -> & _ & H). rewrite (node_find_none (pheap s) None (proot s) a ks (pmax s) [] i H D B L). reflexivity. }
    eexists. split; [reflexivity|]. split; [|split; reflexivity]. rewrite remove_out in * by lia. split; [exists t; cbn; auto|]. split; [exact B|exact CU].
Qed.

Lemma step_good s l s' l' : good s l -> step s l s' l' -> good s' l' /\ pmax s' = pmax s /\ proot s' = proot s.
Proof.
  intros G St. destruct St as [s l i ps s' I INS R|s l i r box s' I E B R|s l r box s' E B R|s l i s' x I R|s l i s' x I R|s l r s' x R|s l r o NR NS].
  - destruct (insert_good s l i ps G I INS) as (s1 & R1 & G1 & X). rewrite R in R1. injection R1 as <-. auto.
  - destruct (create_good s l i r box G I E B) as (s1 & R1 & G1 & X). rewrite R in R1. injection R1 as <-. auto.
  - unfold create_page in R. rewrite (count_ok s l G) in R. cbn [bind] in R. destruct (create_good s l (Z.of_nat (length l)) r box G ltac:(lia) E B) as (s1 & R1 & G1 & X).
    rewrite R in R1. injection R1 as <-. rewrite Nat.min_r in G1 by lia. unfold insert_at in G1. rewrite firstn_all, skipn_all in G1. auto.
  - destruct (remove_good s l i G I) as (s1 & R1 & G1 & X). rewrite R in R1. injection R1 as _ <-. auto.
  - unfold get_page_at in R. rewrite (count_ok s l G) in R. destruct (Z.of_nat (length l) <=? i); [injection R as _ <-; auto|].
    destruct (get_ok s l i G I) as (s1 & G1 & P1 & P2 & P3 & R1). rewrite R in R1. destruct (nth_error l (Z.to_nat i)); [destruct R1 as (j & R1)|]; injection R1 as _ <-; auto.
  - assert (X : forall k s i, good s l -> 0 <= i -> good (snd (get_page_from k s i r)) l /\ pmax (snd (get_page_from k s i r)) = pmax s /\ proot (snd (get_page_from k s i r)) = proot s).
    { clear. induction k as [|k IH]; intros s i G I; [auto|]. cbn [get_page_from]. destruct (get_ok s l i G I) as (s1 & G1 & _ & P2 & P3 & R1).
      destruct (nth_error l (Z.to_nat i)) as [q|]; [destruct R1 as (j & R1)|]; rewrite R1; [|auto]. cbn [fst]. destruct (ref_eqb q r); [auto|].
      destruct (IH s1 (i + 1) G1 ltac:(lia)) as (A & A2 & A3). split; [exact A|split; congruence]. }
    unfold get_page_ref in R. rewrite (count_ok s l G) in R. specialize (X (Z.to_nat (Z.of_nat (length l))) s 0 G ltac:(lia)). rewrite R in X. exact X.
  - split; [|auto]. apply other_good; [exact G|exact NR|]. intros v V. specialize (NS v V). destruct v; auto.
Qed.
Lemma steps_good s l s' l' : good s l -> steps s l s' l' -> good s' l' /\ pmax s' = pmax s /\ proot s' = proot s.
Proof.
  intros G St. induction St as [s l|s l s' l' s'' l'' St IH S1]; [auto|]. destruct (IH G) as (G' & X & Y). destruct (step_good _ _ _ _ G' S1) as (G'' & X' & Y').
  split; [exact G''|split; congruence].
Qed.
Lemma open_good max root h l : doc_pages max h root l -> Z.of_nat (length l) < 2 ^ 31 -> exists s, open_pages max root h = Ok s /\ good s l /\ pmax s = max /\ proot s = root /\ pheap s = h.
Proof.
  intros (t & PT & <- & D) B. unfold open_pages. rewrite (count_root h root t PT B). cbn [bind]. eexists. split; [reflexivity|]. split; [|cbn; auto].
  split; [exists t; cbn; auto|]. split; [exact B|apply cache_new].
Qed.
