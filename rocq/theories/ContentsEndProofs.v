(** Reading content streams ends. *)
From Coq Require Import Lia String.
From Verif Require Import Base TokModel ReadEq WriteModel DictProofs TokProofs ChainProofs FuelProofs ParseProofs CMapModel CMapProofs CMapPropLemmas OpTables ContentsModel ContentsSpec ContentsDevProofs ContentsTokProofs ContentsProofs.
Local Open Scope Z_scope.

(** The result is a value or an error *)
Definition fine {A} (r : res A) : Prop := r <> Fuel /\ r <> UB.
Lemma fine_ok {A} (x : A) : fine (Ok x). Proof. split; discriminate. Qed.
Lemma fine_err {A} e : fine (Err e : res A). Proof. split; discriminate. Qed.
Lemma fine_bind {A B} (r : res A) (k : A -> res B) : fine r -> (forall x, r = Ok x -> fine (k x)) -> fine (bind r k).
Proof. intros [F U] K. destruct r; cbn [bind]; [apply K; reflexivity|apply fine_err|contradiction|contradiction]. Qed.
Lemma next_fine s : fine (ps_next s).
Proof.
  split; [apply next_nofuel|]. unfold ps_next. destruct (next_token (rbuf ps_params) s) as [[[ty t] s1]|] eqn:E; [|discriminate].
  assert (G : (do (dt, s2) <- determine (rbuf ps_params) (rrefs ps_params) (ty, t) s1; do (v, s3) <- read_data ps_params (ps_fuel s2) 0 dt s2; Ok (Some (match v with Some o => PVal o | None => PKey t end, s3))) <> UB).
  { pose proof (determine_noub (rbuf ps_params) (rrefs ps_params) (ty, t) s1) as D. destruct (determine _ _ _ s1) as [[dt s2]| | |] eqn:E1; cbn [bind]; try discriminate; [|contradiction].
    pose proof (proj1 (proj2 (read_noub ps_params (ps_fuel s2))) 0%nat dt s2) as R. destruct (read_data ps_params (ps_fuel s2) 0 dt s2) as [[v s3]| | |]; cbn [bind]; try discriminate. contradiction. }
  destruct ty; try exact G; discriminate.
Qed.
Lemma try_fine s : fine (ps_try_variant s).
Proof.
  unfold ps_try_variant, read_next. destruct (next_token (rbuf ps_params) s) as [[t s1]|] eqn:E; [|apply fine_ok]. apply next_token_mu in E. split; [|apply read_noub]. apply read_nofuel. unfold ps_fuel, mu in *. lia.
Qed.
Lemma try_le s v s' : ps_try_variant s = Ok (v, s') -> (mu s' <= mu s)%nat.
Proof.
  unfold ps_try_variant, read_next. destruct (next_token (rbuf ps_params) s) as [[t s1]|] eqn:E; [|intros H; injection H as _ <-; lia]. apply next_token_mu in E. intros H. apply (proj1 (read_mu ps_params _)) in H. lia.
Qed.
Lemma try_none s s' : quiet s -> ps_try_variant s = Ok (None, s') -> tq s' = [].
Proof.
  intros Q. unfold ps_try_variant, read_next. destruct (next_token (rbuf ps_params) s) as [[t s1]|] eqn:E.
  - apply (quiet_next _ _ _ _ Q) in E. destruct (ps_fuel_S s) as [f ->]. rewrite read_variant_S, pmax_1. intros H. apply bind_ok in H as ([dt s2] & D & H). change (rrefs ps_params) with false in D. apply determine_same in D. subst s2. apply data_none in H. subst s'. exact E.
  - intros H. injection H as <-. unfold next_token in E. destruct (tq s) as [|[ty x] q]; [reflexivity|discriminate].
Qed.
Lemma operands_ends fuel : forall st s, (mu s < fuel)%nat -> quiet s -> fine (operands fuel st s) /\
  (forall st' i s', operands fuel st s = Ok (st', Some (i, s')) -> (S (mu s') <= mu s)%nat /\ tq s' = []).
Proof.
  induction fuel as [|f IH]; intros st s F Q; [lia|]. cbn [operands]. pose proof (next_fine s) as NF. destruct (ps_next s) as [[[i s1]|]| | |] eqn:E; cbn [bind].
  - pose proof (next_mu _ _ _ E) as M. destruct (next_quiet _ _ _ Q E) as [Q1 T]. destruct i as [t|o|].
    + split; [apply fine_ok|]. intros st' i s' H. injection H as <- <- <-. split; [exact M|exact T].
    + destruct (IH (o :: st) s1 ltac:(lia) Q1) as [A B]. split; [exact A|]. intros st' i s' H. apply B in H as [H1 H2]. split; [lia|exact H2].
    + split; [apply fine_ok|]. intros st' i s' H. injection H as <- <- <-. split; [exact M|exact T].
  - split; [apply fine_ok|]. intros st' i s' H. discriminate.
  - split; [apply fine_err|]. discriminate.
  - destruct NF as [_ NF]. contradiction.
  - destruct NF as [NF _]. contradiction.
Qed.
Lemma dict_ends fuel : forall c s, (mu s < fuel)%nat -> quiet s -> fine (image_dict fuel c s) /\
  (forall c' ok s', image_dict fuel c s = Ok (c', ok, s') -> (mu s' <= mu s)%nat /\ tq s' = []).
Proof.
  induction fuel as [|f IH]; intros c s F Q; [lia|]. cbn [image_dict]. pose proof (next_fine s) as NF. destruct (ps_next s) as [[[i s1]|]| | |] eqn:E; cbn [bind].
  - pose proof (next_mu _ _ _ E) as M. destruct (next_quiet _ _ _ Q E) as [Q1 T].
    assert (G : fine (image_dict f (add_warn c w_imgdict) s1) /\ (forall c' ok s', image_dict f (add_warn c w_imgdict) s1 = Ok (c', ok, s') -> (mu s' <= mu s)%nat /\ tq s' = [])).
    { destruct (IH (add_warn c w_imgdict) s1 ltac:(lia) Q1) as [A B]. split; [exact A|]. intros c' ok s' H. apply B in H as [H1 H2]. split; [lia|exact H2]. }
    destruct i as [t|o|]; [|destruct o; try exact G|exact G].
    + destruct (beq t (bs "ID")); [|exact G]. split; [apply fine_ok|]. intros c' ok s' H. injection H as _ _ <-. split; [lia|exact T].
    + pose proof (try_fine s1) as TF. destruct (ps_try_variant s1) as [[[v|] s2]| | |] eqn:E2; cbn [bind].
      * pose proof (try_le _ _ _ E2) as M2. destruct (IH (set_dict c (dict_add n v (ct_dict c))) s2 ltac:(lia) (try_quiet _ _ _ Q1 E2)) as [A B]. split; [exact A|]. intros c' ok s' H. apply B in H as [H1 H2]. split; [lia|exact H2].
      * pose proof (try_le _ _ _ E2) as M2. split; [apply fine_ok|]. intros c' ok s' H. injection H as _ _ <-. split; [lia|exact (try_none _ _ Q1 E2)].
      * split; [apply fine_err|]. discriminate.
      * destruct TF as [_ TF]. contradiction.
      * destruct TF as [TF _]. contradiction.
  - split; [apply fine_ok|]. intros c' ok s' H. injection H as _ _ <-. split; [lia|]. unfold ps_next in E. destruct (next_token (rbuf ps_params) s) as [[[ty t] s1]|] eqn:E1.
    + exfalso. destruct ty; try discriminate; apply bind_ok in E as ([dt s2] & _ & E); apply bind_ok in E as ([v s3] & _ & E); discriminate.
    + unfold next_token in E1. destruct (tq s) as [|[ty x] q]; [reflexivity|discriminate].
  - split; [apply fine_err|]. discriminate.
  - destruct NF as [_ NF]. contradiction.
  - destruct NF as [NF _]. contradiction.
Qed.
Lemma data_len b : forall st acc d k, image_data st acc b = Some (d, k) -> (length k < length b)%nat.
Proof.
  induction b as [|c b IH]; intros st acc d k H; [discriminate|]. cbn [image_data length] in *. destruct st; [apply IH in H; lia|apply IH in H; lia|].
  destruct (is_ws c); [injection H as _ <-; lia|apply IH in H; lia].
Qed.

Section Ends.
Variable w : world.
Variable a : rargs.
Variable xs : list Z.
Variable L : nat.
Hypothesis forms : forall cv n x, w_xobject w cv n = Some (x, XForm) -> In x xs.
Hypothesis long : forall x, In x xs -> (length (joined (texts (w_text w x))) <= L)%nat.
Hypothesis shrinks : match ra_handler a with Some h => forall d b, (length (snd (h d b)) <= length b)%nat | None => True end.

Fixpoint good (l : list input) : Prop :=
  match l with
  | [] => True
  | i :: r => match r with [] => True | _ => (exists x, in_canvas i = Some (x, x) /\ In x xs /\ ~ In x (objs r)) /\ good r end
  end.
Lemma good_len l : good l -> exists ys, NoDup ys /\ incl ys xs /\ incl ys (objs l) /\ (length l <= S (length ys))%nat.
Proof.
  induction l as [|i r IH]; intros G; [exists []; repeat split; [constructor|intros ? []|intros ? []|cbn; lia]|]. destruct r as [|i2 r]; [exists []; repeat split; [constructor|intros ? []|intros ? []|cbn; lia]|].
  destruct G as [(x & C & IX & NX) G]. destruct (IH G) as (ys & N & I1 & I2 & LE). exists (x :: ys). split; [constructor; [intros X; apply NX, I2; exact X|exact N]|].
  split; [intros y [<-|Y]; [exact IX|apply I1; exact Y]|]. split; [|cbn [length] in *; lia]. intros y Y. change (objs (i :: i2 :: r)) with ((match in_canvas i with Some (_, o) => [o] | None => [] end) ++ objs (i2 :: r)). rewrite C. destruct Y as [<-|Y]; [left; reflexivity|right; apply I2; exact Y].
Qed.
Lemma good_bound l : good l -> (length l <= S (length xs))%nat.
Proof. intros G. destruct (good_len l G) as (ys & N & I1 & _ & LE). pose proof (NoDup_incl_length N I1). lia. Qed.
Lemma good_top i l b : good (i :: l) -> good (mk_in (in_canvas i) b :: l).
Proof. destruct l; [trivial|]. intros G. exact G. Qed.
Lemma good_tail i l : good (i :: l) -> good l.
Proof. destruct l; [trivial|]. intros [_ G]. exact G. Qed.

Definition base : nat := S (S L).
Fixpoint weight (l : list input) : nat :=
  match l with [] => 0%nat | i :: r => (S (length (in_dev i)) * base ^ (S (length xs) - length r) + weight r)%nat end.
Lemma pow_pos n : (1 <= base ^ n)%nat.
Proof. induction n; cbn [Nat.pow]; [lia|]. unfold base in *. nia. Qed.
Lemma weight_top i l b : (length b <= length (in_dev i))%nat -> (weight (mk_in (in_canvas i) b :: l) <= weight (i :: l))%nat.
Proof. intros H. cbn [weight in_dev]. pose proof (pow_pos (S (length xs) - length l)). nia. Qed.
Lemma weight_less i l b : (length b < length (in_dev i))%nat -> (weight (mk_in (in_canvas i) b :: l) + base ^ (S (length xs) - length l) <= weight (i :: l))%nat.
Proof. intros H. cbn [weight in_dev]. pose proof (pow_pos (S (length xs) - length l)). nia. Qed.
Lemma weight_tail i l : (weight l < weight (i :: l))%nat.
Proof. cbn [weight]. pose proof (pow_pos (S (length xs) - length l)). nia. Qed.

(** ** One content *)
Definition inv (r : reader) : Prop := rd_q r = [] /\ good (rd_inputs r).
Lemma pow_split n : (1 <= n)%nat -> (base ^ n = base * base ^ (n - 1))%nat.
Proof. intros H. replace n with (S (n - 1))%nat at 1 by lia. reflexivity. Qed.
Lemma follow_ends cv i l c : good (i :: l) -> fine (follow w a cv (i :: l) c) /\
  (forall l' c', follow w a cv (i :: l) c = Ok (l', c') -> l' <> [] /\ good l' /\ (weight l' < weight (i :: l) + base ^ (S (length xs) - length l))%nat).
Proof.
  intros G. assert (K : forall c0 : content, fine (Ok (i :: l, c0)) /\ (forall l' c', Ok (i :: l, c0) = Ok (l', c') -> l' <> [] /\ good l' /\ (weight l' < weight (i :: l) + base ^ (S (length xs) - length l))%nat)).
  { intros c0. split; [apply fine_ok|]. intros l' c' H. injection H as <- _. split; [discriminate|]. split; [exact G|]. pose proof (pow_pos (S (length xs) - length l)). lia. }
  unfold follow. destruct (ct_stack c) as [|o [|o2 st]]; [apply K| |destruct o; apply K]. destruct o; try apply K.
  destruct (w_xobject w cv n) as [[x k]|] eqn:X; [|apply K]. destruct (called_recursively (i :: l) x) eqn:R; [apply K|]. destruct k; [|apply K|apply K]. destruct (ra_nofollow a); [apply K|].
  rewrite all_joined. cbn [bind]. split; [apply fine_ok|]. intros l' c' H. injection H as <- _. pose proof (forms _ _ _ X) as IX.
  assert (NX : ~ In x (objs (i :: l))) by (intros IO; rewrite (recursively_yes _ _ IO) in R; discriminate).
  assert (G' : good (mk_in (Some (x, x)) (joined (texts (w_text w x))) :: i :: l)) by (split; [exists x; split; [reflexivity|split; assumption]|exact G]).
  split; [discriminate|]. split; [exact G'|]. apply good_bound in G'. cbn [length] in G'. cbn [weight in_dev length]. pose proof (long x IX) as LX.
  assert (P : (base ^ (S (length xs) - length l) = base * base ^ (S (length xs) - S (length l)))%nat) by (rewrite pow_split by lia; f_equal; f_equal; lia).
  rewrite P. pose proof (pow_pos (S (length xs) - S (length l))). set (Y := (base ^ (S (length xs) - S (length l)))%nat) in *. unfold base. nia.
Qed.
Lemma check_fine op n c : op_of_name n = Some op -> fine (check_count op c).
Proof.
  intros H. unfold check_count. destruct (op_count op) as [k|] eqn:E; [|apply fine_err]. apply fine_ok.
Qed.
Lemma content_ends r c : rd_inputs r <> [] -> inv r -> fine (next_content w a r c) /\
  (forall ok r' c', next_content w a r c = Ok (ok, r', c') -> inv r' /\ rd_inputs r' <> [] /\ if ok then (weight (rd_inputs r') < weight (rd_inputs r))%nat else (weight (rd_inputs r') <= weight (rd_inputs r))%nat).
Proof.
  intros N [Q G]. unfold next_content. destruct (rd_inputs r) as [|i l] eqn:EI; [contradiction|]. rewrite Q. cbn [length].
  destruct (operands_ends (S (length (in_dev i) + 0)) (ct_stack c) (mk_tst [] (in_dev i)) ltac:(unfold mu; cbn [tin tq length]; lia) Logic.I) as [OF OE].
  destruct (operands (S (length (in_dev i) + 0)) (ct_stack c) (mk_tst [] (in_dev i))) as [[st [[it s]|]]| | |] eqn:EO; cbn [bind].
  2: { split; [apply fine_ok|]. intros ok r' c' H. injection H as <- <- _. cbn [rd_inputs]. split; [split; [reflexivity|exact G]|]. split; [discriminate|lia]. }
  2: { split; [apply fine_err|]. discriminate. }
  2: { destruct OF as [_ OF]. contradiction. }
  2: { destruct OF as [OF _]. contradiction. }
  destruct (OE _ _ _ eq_refl) as [OM OQ]. unfold mu in OM. cbn [tin tq length] in OM. rewrite OQ in *. cbn [length] in OM.
  assert (GB : good (mk_in (in_canvas i) (tin s) :: l)) by (apply good_top; exact G).
  pose proof (weight_less i l (tin s) ltac:(lia)) as WL. pose proof (pow_pos (S (length xs) - length l)) as PP.
  assert (K : forall (c0 : content) b, fine (Ok (true, mk_rd (mk_in (in_canvas i) (tin s) :: l) b [], c0)) /\
    (forall ok r' c', Ok (true, mk_rd (mk_in (in_canvas i) (tin s) :: l) b [], c0) = Ok (ok, r', c') -> inv r' /\ rd_inputs r' <> [] /\ if ok then (weight (rd_inputs r') < weight (i :: l))%nat else (weight (rd_inputs r') <= weight (i :: l))%nat)).
  { intros c0 b. split; [apply fine_ok|]. intros ok r' c' H. injection H as <- <- _. cbn [rd_inputs]. split; [split; [reflexivity|exact GB]|]. split; [discriminate|lia]. }
  destruct it as [t|o|]; [|apply K|apply K]. destruct (op_of_name t) as [op|] eqn:EN; [|apply K].
  pose proof (check_fine op t (set_read c COperator st op t) EN) as CF. destruct (check_count op (set_read c COperator st op t)) as [c1| | |]; cbn [bind];
    [|split; [apply fine_err|discriminate]|destruct CF as [_ CF]; contradiction|destruct CF as [CF _]; contradiction].
  destruct (op =? op_Do).
  - destruct (in_canvas i) as [[cv o]|] eqn:EC; [|apply K]. destruct (follow_ends cv (mk_in (Some (cv, o)) (tin s)) l c1 GB) as [FF FE].
    destruct (follow w a cv (mk_in (Some (cv, o)) (tin s) :: l) c1) as [[l' c2]| | |]; cbn [bind]; [|split; [apply fine_err|discriminate]|destruct FF as [_ FF]; contradiction|destruct FF as [FF _]; contradiction].
    split; [apply fine_ok|]. intros ok r' c' H. injection H as <- <- _. destruct (FE _ _ eq_refl) as (N' & G' & W'). cbn [rd_inputs]. split; [split; [reflexivity|exact G']|]. split; [exact N'|lia].
  - destruct (op =? op_BI); [|apply K]. cbn [length].
    destruct (dict_ends (S (length (tin s) + 0)) c1 s ltac:(unfold mu; rewrite OQ; cbn [length]; lia) (quiet_nil _ OQ)) as [DF DE].
    destruct (image_dict (S (length (tin s) + 0)) c1 s) as [[[c2 ok2] s2]| | |]; cbn [bind]; [|split; [apply fine_err|discriminate]|destruct DF as [_ DF]; contradiction|destruct DF as [DF _]; contradiction].
    destruct (DE _ _ _ eq_refl) as [DM DQ]. split; [apply fine_ok|]. intros ok r' c' H. injection H as <- <- _. cbn [rd_inputs]. split; [split; [exact DQ|apply good_top; exact G]|]. split; [discriminate|].
    unfold mu in DM. rewrite DQ, OQ in DM. cbn [length] in DM. pose proof (weight_less i l (tin s2) ltac:(lia)). destruct ok2; lia.
Qed.
Definition result_ends (n : nat) (x : res (bool * reader * content)) : Prop :=
  fine x /\ forall r' c', x = Ok (true, r', c') -> inv r' /\ (weight (rd_inputs r') < n)%nat.
Lemma handle_ends n r c : inv r -> (weight (rd_inputs r) < n)%nat -> result_ends n (handle_content a r c).
Proof.
  intros V W. unfold handle_content, handle_warnings. destruct (ra_throw a); cbn [bind]; (split; [first [apply fine_ok|apply fine_err]|]); [discriminate|]. intros r' c' H. injection H as <- _. split; assumption.
Qed.
Lemma pop_ends n r c : inv r -> rd_inputs r <> [] -> (weight (rd_inputs r) <= n)%nat -> result_ends n (pop_device a r c).
Proof.
  intros [Q G] N W. unfold pop_device. destruct (rd_inputs r) as [|i [|i2 l]]; [contradiction|split; [apply fine_ok|discriminate]|].
  apply handle_ends; cbn [rd_inputs]; [split; [exact Q|apply good_tail in G; exact G]|]. pose proof (weight_tail i (i2 :: l)). lia.
Qed.
Lemma read_ends n r c : inv r -> rd_inputs r <> [] -> (weight (rd_inputs r) <= n)%nat -> result_ends n (read_content w a r c).
Proof.
  intros V N W. unfold read_content. destruct (content_ends r c N V) as [F E]. destruct (next_content w a r c) as [[[ok r1] c1]| | |]; cbn [bind];
    [|split; [apply fine_err|discriminate]|destruct F as [_ F]; contradiction|destruct F as [F _]; contradiction].
  destruct (E _ _ _ eq_refl) as (V1 & N1 & W1). destruct ok; [apply handle_ends; [exact V1|lia]|apply pop_ends; [exact V1|exact N1|lia]].
Qed.
Lemma next_ends r c : inv r -> result_ends (weight (rd_inputs r)) (try_read_next w a r c).
Proof.
  intros [Q G]. unfold try_read_next. destruct (rd_inputs r) as [|i l] eqn:EI; [split; [apply fine_ok|discriminate]|].
  assert (V0 : inv r) by (split; [exact Q|rewrite EI; exact G]). assert (N0 : rd_inputs r <> []) by (rewrite EI; discriminate).
  destruct (rd_img r); [|apply read_ends; [exact V0|exact N0|rewrite EI; lia]]. destruct (ra_handler a) as [h|] eqn:EH.
  - pose proof (shrinks (ct_dict (before_read c)) (in_dev i)) as SH. destruct (h (ct_dict (before_read c)) (in_dev i)) as [more b]. cbn [snd] in SH. pose proof (weight_top i l b SH) as WT.
    set (r1 := mk_rd (mk_in (in_canvas i) b :: l) false (rd_q r)). assert (V1 : inv r1) by (split; [exact Q|apply good_top; exact G]). assert (N1 : rd_inputs r1 <> []) by discriminate.
    destruct more; [|apply pop_ends; [exact V1|exact N1|exact WT]].
    destruct (content_ends r1 (before_read c) N1 V1) as [F E]. destruct (next_content w a r1 (before_read c)) as [[[ok r2] c2]| | |]; cbn [bind];
      [|split; [apply fine_err|discriminate]|destruct F as [_ F]; contradiction|destruct F as [F _]; contradiction].
    destruct (E _ _ _ eq_refl) as (V2 & N2 & W2). change (rd_inputs r1) with (mk_in (in_canvas i) b :: l) in W2. destruct ok; [destruct (ct_op c2 =? op_EI)|].
    + apply read_ends; [exact V2|exact N2|lia].
    + apply handle_ends; [exact V2|lia].
    + apply pop_ends; [exact V2|exact N2|lia].
  - destruct (read_image_data (in_dev i)) as [[d b]|] eqn:ED; [|apply pop_ends; [exact V0|exact N0|rewrite EI; lia]]. split; [apply fine_ok|]. intros r' c' H. injection H as <- _. cbn [rd_inputs].
    split; [split; [exact Q|apply good_top; exact G]|]. assert (LB : (length b < length (in_dev i))%nat) by (unfold read_image_data in ED; destruct (in_dev i); [discriminate|apply data_len in ED; cbn [length]; lia]).
    pose proof (weight_less i l b LB). pose proof (pow_pos (S (length xs) - length l)). lia.
Qed.
Lemma all_ends fuel : forall r c, inv r -> (weight (rd_inputs r) < fuel)%nat -> fine (read_all fuel w a r c).
Proof.
  induction fuel as [|f IH]; intros r c V W; [lia|]. cbn [read_all]. destruct (next_ends r c V) as [F E]. destruct (try_read_next w a r c) as [[[ok r1] c1]| | |]; cbn [bind];
    [|apply fine_err|destruct F as [_ F]; contradiction|destruct F as [F _]; contradiction].
  destruct ok; [|apply fine_ok]. destruct (E _ _ eq_refl) as [V1 W1]. apply fine_bind; [apply IH; [exact V1|lia]|]. intros x _. apply fine_ok.
Qed.
End Ends.

(** ** Any bound on the forms *)
Lemma bounded {A} (f : A -> nat) (l : list A) : exists n, forall x, In x l -> (f x <= n)%nat.
Proof.
  induction l as [|y l [n H]]; [exists 0%nat; intros x []|]. exists (f y + n)%nat. intros x [->|X]; [lia|]. pose proof (H x X). lia.
Qed.
Theorem reading_ends w a xs cvi text c :
  (forall cv n x, w_xobject w cv n = Some (x, XForm) -> In x xs) ->
  (forall h, ra_handler a = Some h -> forall d b, (length (snd (h d b)) <= length b)%nat) ->
  exists n, forall fuel, (n <= fuel)%nat -> fine (read_all fuel w a (mk_rd [mk_in cvi text] false []) c).
Proof.
  intros F S. destruct (bounded (fun x => length (joined (texts (w_text w x)))) xs) as [L B].
  exists (Datatypes.S (weight xs L [mk_in cvi text])). intros fuel LE. apply (all_ends w a xs L F B).
  - destruct (ra_handler a) as [h|]; [exact (S h eq_refl)|exact Logic.I].
  - split; [reflexivity|exact Logic.I].
  - exact LE.
Qed.
