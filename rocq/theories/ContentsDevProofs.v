(** The device of a canvas, and the tables of operators. *)
From Coq Require Import Lia String.
From Verif Require Import Base TokModel WriteModel CMapModel OpTables ContentsModel ContentsSpec.
Local Open Scope Z_scope.

(** ** The device of a canvas *)
Definition after_first (ts : list (list Z)) : list Z := flat_map (cons 10) ts.
Definition rest_of (d : cdev) : list Z :=
  if cd_eof d then [] else (if cd_sw d then [10] else []) ++ cd_cur d ++ after_first (texts (cd_rest d)).
Lemma joined_cons b r : joined (b :: r) = b ++ after_first r.
Proof.
  revert b. induction r as [|b' r IH]; intros b; [cbn; rewrite app_nil_r; reflexivity|]. change (joined (b :: b' :: r)) with (b ++ 10 :: joined (b' :: r)). rewrite IH. reflexivity.
Qed.
Lemma pop_some l : forall b r, pop_next l = Some (b, r) -> texts l = b :: texts r /\ b <> [] /\ (length r < length l)%nat.
Proof.
  induction l as [|[[|c x]|] l IH]; intros b r H; cbn [pop_next] in H; try discriminate.
  - apply IH in H as (A & B & C). cbn [length]. split; [exact A|split; [exact B|lia]].
  - injection H as <- <-. cbn [length]. split; [reflexivity|split; [discriminate|lia]].
  - apply IH in H as (A & B & C). cbn [length]. split; [exact A|split; [exact B|lia]].
Qed.
Lemma pop_none l : pop_next l = None -> texts l = [].
Proof. induction l as [|[[|c x]|] l IH]; intros H; cbn [pop_next] in H; try discriminate; [reflexivity|exact (IH H)|exact (IH H)]. Qed.
Lemma open_rest l : rest_of (cd_open l) = joined (texts l).
Proof.
  unfold cd_open. destruct (pop_next l) as [[b r]|] eqn:E.
  - apply pop_some in E as (-> & _). rewrite joined_cons. reflexivity.
  - apply pop_none in E. rewrite E. reflexivity.
Qed.
Lemma read_rest d : exists d', cd_read d = (match rest_of d with [] => None | c :: _ => Some c end, d') /\ rest_of d' = tl (rest_of d).
Proof.
  unfold cd_read, rest_of. destruct d as [cur rest sw eof]. cbn [cd_eof cd_sw cd_cur cd_rest]. destruct eof; [eexists; split; [reflexivity|reflexivity]|].
  destruct sw; [eexists; split; [reflexivity|reflexivity]|]. destruct cur as [|c r]; [|eexists; split; [reflexivity|reflexivity]].
  destruct (pop_next rest) as [[b r]|] eqn:E.
  - apply pop_some in E as (-> & _). eexists. split; [reflexivity|]. reflexivity.
  - apply pop_none in E. rewrite E. eexists. split; [reflexivity|]. reflexivity.
Qed.
Lemma peek_rest d : exists d', cd_peek d = (match rest_of d with [] => None | c :: _ => Some c end, d') /\ rest_of d' = rest_of d.
Proof.
  unfold cd_peek, rest_of. destruct d as [cur rest sw eof]. cbn [cd_eof cd_sw cd_cur cd_rest]. destruct eof; [eexists; split; [reflexivity|reflexivity]|].
  destruct sw; [eexists; split; [reflexivity|reflexivity]|]. destruct cur as [|c r]; [|eexists; split; [reflexivity|reflexivity]].
  destruct (pop_next rest) as [[b r]|] eqn:E.
  - apply pop_some in E as (-> & _). eexists. split; [reflexivity|]. reflexivity.
  - apply pop_none in E. rewrite E. eexists. split; [reflexivity|]. reflexivity.
Qed.
Lemma drain_rest fuel : forall d, (length (rest_of d) < fuel)%nat -> cd_drain fuel d = Ok (rest_of d).
Proof.
  induction fuel as [|f IH]; intros d L; [lia|]. cbn [cd_drain]. destruct (read_rest d) as (d' & -> & E). destruct (rest_of d) as [|c r]; [reflexivity|]. cbn [tl length] in *.
  rewrite IH by (rewrite E; lia). rewrite E. reflexivity.
Qed.
Lemma after_size l : (length (after_first (texts l)) <= list_sum (map stream_size l))%nat.
Proof.
  induction l as [|[[|c x]|] l IH]; [cbn; lia| | |]; cbn [texts flat_map map stream_size list_sum fold_right app] in *; fold (texts l) in *; fold (list_sum (map stream_size l)) in *; try (cbn [length]; lia).
  change (after_first ((c :: x) :: texts l)) with ((10 :: c :: x) ++ after_first (texts l)). rewrite app_length. cbn [length]. lia.
Qed.
Lemma joined_size l : (length (joined (texts l)) <= list_sum (map stream_size l))%nat.
Proof. pose proof (after_size l) as A. destruct (texts l) as [|b r]; [cbn; lia|]. rewrite joined_cons. change (after_first (b :: r)) with ((10 :: b) ++ after_first r) in A. rewrite app_length in *. cbn [length] in *. lia. Qed.
Lemma all_joined l : cd_all l = Ok (joined (texts l)).
Proof. unfold cd_all. rewrite drain_rest; rewrite open_rest; [reflexivity|]. pose proof (joined_size l). lia. Qed.

(** readBuffer gives what is next, and all of it when there is room *)
Definition fill_body (f : nat) (size : nat) (acc : list Z) (d : cdev) : res (list Z * cdev) :=
  if (size =? 0)%nat then Ok (acc, d)
  else if cd_sw d && (size =? 1)%nat then Ok (acc ++ [10], mk_cd (cd_cur d) (cd_rest d) false false)
  else
    let acc := if cd_sw d then acc ++ [10] else acc in
    let size := if cd_sw d then (size - 1)%nat else size in
    let got := firstn size (cd_cur d) in
    cd_fill f false (size - length got) (acc ++ got) (mk_cd (skipn size (cd_cur d)) (cd_rest d) false false).
Lemma body_reads f : forall size acc d, cd_eof d = false -> (length (cd_rest d) < f)%nat ->
  exists d', fill_body f size acc d = Ok (acc ++ firstn size (rest_of d), d') /\ ((length (rest_of d) <= size)%nat -> rest_of d' = []).
Proof.
  induction f as [|f IH]; intros size acc [cur rest sw eof] E L; cbn [cd_eof cd_rest] in *; [lia|]. subst eof. unfold fill_body, rest_of at 1 2. cbn [cd_eof cd_sw cd_cur cd_rest].
  destruct (size =? 0)%nat eqn:Z0.
  { apply Nat.eqb_eq in Z0. subst size. eexists. split; [rewrite firstn_O, app_nil_r; reflexivity|]. intros X. unfold rest_of. cbn [cd_eof cd_sw cd_cur cd_rest]. apply length_zero_iff_nil. lia. }
  apply Nat.eqb_neq in Z0. destruct (sw && (size =? 1)%nat) eqn:E1.
  { apply andb_true_iff in E1 as [-> E1]. apply Nat.eqb_eq in E1. subst size. eexists. split; [reflexivity|]. intros X. unfold rest_of. cbn [cd_eof cd_sw cd_cur cd_rest]. cbn [app length] in X |- *. apply length_zero_iff_nil. lia. }
  assert (R : forall acc size, exists d', cd_fill (S f) false (size - length (firstn size cur)) (acc ++ firstn size cur) (mk_cd (skipn size cur) rest false false) = Ok (acc ++ firstn size (cur ++ after_first (texts rest)), d') /\ ((length (cur ++ after_first (texts rest)) <= size)%nat -> rest_of d' = [])).
  { clear - IH L. intros acc size. cbn [cd_fill cd_rest]. destruct (pop_next rest) as [[b r]|] eqn:E.
    - apply pop_some in E as (T & _ & LR). rewrite T.
      destruct (IH (size - length (firstn size cur))%nat (acc ++ firstn size cur) (mk_cd b r true false) eq_refl ltac:(cbn [cd_rest]; lia)) as (d' & B & D). exists d'.
      assert (G : (size - length (firstn size cur) = size - length cur)%nat) by (rewrite firstn_length; lia). rewrite G in *. split.
      + unfold fill_body in B. etransitivity; [exact B|]. rewrite firstn_app, <- app_assoc. reflexivity.
      + intros X. apply D. rewrite app_length in X. unfold rest_of. cbn [cd_eof cd_sw cd_cur cd_rest app]. change (after_first (b :: texts r)) with (10 :: b ++ after_first (texts r)) in X. lia.
    - apply pop_none in E. rewrite E. cbn [after_first flat_map]. rewrite app_nil_r. eexists. split; [reflexivity|]. intros _. reflexivity. }
  destruct sw.
  - destruct (R (acc ++ [10]) (size - 1)%nat) as (d' & B & D). exists d'. split.
    + etransitivity; [exact B|]. rewrite <- app_assoc. destruct size as [|size]; [lia|]. cbn [app firstn]. replace (S size - 1)%nat with size by lia. reflexivity.
    + intros X. apply D. cbn [app length] in X. lia.
  - destruct (R acc size) as (d' & B & D). exists d'. split; [exact B|exact D].
Qed.
Lemma buffer_reads size d : exists d', cd_read_buffer size d = Ok (firstn size (rest_of d), d') /\ ((length (rest_of d) <= size)%nat -> rest_of d' = []).
Proof.
  unfold cd_read_buffer. destruct (cd_eof d) eqn:E; [exists d; unfold rest_of; rewrite E; rewrite firstn_nil; split; [reflexivity|intros _; reflexivity]|].
  exact (body_reads (S (length (cd_rest d))) size [] d E ltac:(lia)).
Qed.

(** ** The operators *)
Definition iso_count (k : option Z) : Z := match k with Some n => n | None => -1 end.
Definition op_rowb (x : list Z * option Z) : bool :=
  match op_of_name (fst x) with
  | Some op => match op_name op, op_count op with Some n, Some k => beq n (fst x) && (k =? iso_count (snd x)) | _, _ => false end
  | None => false
  end.
Lemma iso_table : forallb op_rowb iso_ops = true.
Proof. vm_compute. reflexivity. Qed.
Lemma iso_op n k : In (n, k) iso_ops -> exists op, op_of_name n = Some op /\ op_name op = Some n /\ op_count op = Some (iso_count k).
Proof.
  intros I. pose proof (proj1 (forallb_forall _ _) iso_table _ I) as H. unfold op_rowb in H. cbn [fst snd] in H. destruct (op_of_name n) as [op|]; [|discriminate]. exists op. split; [reflexivity|].
  destruct (op_name op) as [m|]; [|discriminate]. destruct (op_count op) as [c|]; [|discriminate]. apply andb_true_iff in H as [A B]. apply beq_eq in A. apply Z.eqb_eq in B. subst. split; reflexivity.
Qed.
Lemma lookup_op_in t n op : lookup_op t n = Some op -> In (n, op) t.
Proof. induction t as [|[k v] t IH]; [discriminate|]. cbn [lookup_op]. destruct (beq n k) eqn:E; [apply beq_eq in E; intros H; injection H as <-; left; congruence|right; auto]. Qed.
Lemma lookup_z_in {A} (t : list (Z * A)) n x : lookup_z t n = Some x -> In (n, x) t.
Proof. induction t as [|[k v] t IH]; [discriminate|]. cbn [lookup_z]. destruct (n =? k) eqn:E; [apply Z.eqb_eq in E; intros H; injection H as <-; left; congruence|right; auto]. Qed.
Lemma op_table_iso : forallb (fun x => existsb (fun y => beq (fst x) (fst y)) iso_ops) op_table = true.
Proof. vm_compute. reflexivity. Qed.
Lemma op_iso n op : op_of_name n = Some op -> In n (map fst iso_ops).
Proof.
  intros H. apply lookup_op_in in H. pose proof (proj1 (forallb_forall _ _) op_table_iso _ H) as E. cbn [fst] in E. apply existsb_exists in E as (y & I & E). apply beq_eq in E. rewrite E. apply in_map. exact I.
Qed.
Lemma opname_table_back : forallb (fun x => match op_of_name (snd x) with Some op => op =? fst x | None => false end) opname_table = true.
Proof. vm_compute. reflexivity. Qed.
Lemma op_name_of op n : op_name op = Some n -> op_of_name n = Some op.
Proof.
  intros H. apply lookup_z_in in H. pose proof (proj1 (forallb_forall _ _) opname_table_back _ H) as E. cbn [fst snd] in E. destruct (op_of_name n) as [o|]; [|discriminate]. apply Z.eqb_eq in E. congruence.
Qed.
Lemma op_of_unknown n : ~ In n (map fst iso_ops) -> op_of_name n = None.
Proof. intros N. destruct (op_of_name n) as [op|] eqn:E; [|reflexivity]. apply op_iso in E. contradiction. Qed.
