(** Page trees: node graphs of any shape, page numbers, inherited resources *)
From Coq Require Import String.
From Verif Require Import Base ChainProofs TokModel DictProofs OwnModel ListModel PageModel PageSpec PageProofs PageOpProofs PageDelProofs PagePropLemmas.
Local Open Scope Z_scope.
Local Notation dict := (list (list Z * obj)) (only parsing).
Local Notation kids_of ks := (map (fun k => ptr (tref k)) ks).

(** ** Any graph *)
Definition found_ok (h : heap) (r : ref) (ps0 : list ref) (n : nat) (x : res (option (ref * list ref))) : Prop :=
  match x with
  | Ok (Some (page, ps)) => exists path, ps = ps0 ++ path /\ path <> [] /\ (length path <= n)%nat /\ kid_chain h r path page /\
      (NoDup (ps0 ++ [r]) -> NoDup ps) /\ exists d, h page = Some (ODict d) /\ value_of h d "Type" (OName (bs "Page"))
  | UB => False
  | Fuel => False
  | _ => True
  end.
Lemma find_value h d k v : (forall n g, v <> ORef n g) -> dict_find h (bs k) d = Some v -> value_of h d k v.
Proof.
  unfold dict_find, get_key, value_of. intros N. destruct (dict_get (bs k) d) as [o|]; [|discriminate]. destruct o; try (intros [= <-]; left; reflexivity).
  intros H. right. exists (n, g). auto.
Qed.
Lemma type_of_value h d ty : type_of h d = Ok ty -> ty <> [] -> value_of h d "Type" (OName ty).
Proof.
  unfold type_of. destruct (dict_find h (bs "Type") d) as [[]|] eqn:E; try discriminate; [|congruence]. intros [= <-] _. apply find_value; [discriminate|exact E].
Qed.
Lemma type_of_total h d : (exists t, type_of h d = Ok t) \/ type_of h d = Err EInvalidDataType.
Proof. unfold type_of. destruct (dict_find h (bs "Type") d) as [[]|]; eauto. Qed.
Lemma child_count_total h d : (exists c, child_count h d = Ok c) \/ child_count h d = Err EInvalidDataType.
Proof. unfold child_count. destruct (dict_find h (bs "Count") d) as [[]|]; eauto. Qed.
Lemma existsb_not_in x l : existsb (ref_eqb x) l = false -> ~ In x l.
Proof. intros E I. assert (existsb (ref_eqb x) l = true) by (apply existsb_exists; exists x; split; [exact I|apply ref_eqb_refl]). congruence. Qed.

Lemma page_node_ok h : forall n i r ps, (exists v, h r = Some v) -> found_ok h r ps n (page_node n h i r ps).
Proof.
  induction n as [|n IH]; intros i r ps (v & E); [exact I|]. cbn [page_node]. unfold dict_at. rewrite E. destruct v as [| | | | | | | |d]; try exact I. cbn [bind].
  destruct (has_key (bs "Kids") d); cbn [negb]; [|exact I]. destruct (dict_find h (bs "Kids") d) as [[| | | | | | |kids|]|] eqn:EK; try exact I.
  destruct (child_count_total h d) as [(c & ->)| ->]; [|exact I]. cbn [bind]. destruct (c <? i); [exact I|].
  assert (KO : forall n' g', In (ORef n' g') kids -> kid_of h r (n', g')).
  { intros n' g' K. exists d, kids. split; [exact E|]. split; [apply find_value; [discriminate|exact EK]|exact K]. }
  clear EK c. revert i. induction kids as [|k kids IK]; intros i; [exact I|]. cbn [find_kid]. destruct k as [| | | | | |kn kg| |]; try exact I.
  destruct (h (kn, kg)) as [[| | | | | | | |dk]|] eqn:EH; try exact I.
  destruct (type_of_total h dk) as [(ty & ET)|ET]; rewrite ET; [|exact I]. cbn [bind]. destruct (beq ty (bs "Pages")) eqn:EP.
  - destruct (child_count_total h dk) as [(c & ->)| ->]; [|exact I]. cbn [bind]. destruct (c <? u32 (i + 1)).
    + apply IK. intros n' g' K. apply KO. right. exact K.
    + cbv zeta. destruct (existsb (ref_eqb (kn, kg)) (ps ++ [r])) eqn:EC; [exact I|].
      pose proof (IH i (kn, kg) (ps ++ [r]) (ex_intro _ _ EH)) as F. destruct (page_node n h i (kn, kg) (ps ++ [r])) as [[[page pp]|]| | |]; try exact F.
      destruct F as (path & -> & NE & LE & CH & ND & TY). exists (r :: path). split; [rewrite <- app_assoc; reflexivity|]. split; [discriminate|]. split; [cbn [length]; lia|].
      split; [split; [reflexivity|]; exists (kn, kg); split; [apply KO; left; reflexivity|exact CH]|]. split; [|exact TY].
      intros X. apply ND. apply NoDup_app_i; [exact X|repeat constructor; auto|]. intros y Y [<-|[]]. exact (existsb_not_in _ _ EC Y).
  - destruct (beq ty (bs "Page")) eqn:EG; [|exact I]. destruct (i =? 0).
    + apply beq_eq in EG. subst ty. exists [r]. split; [reflexivity|]. split; [discriminate|]. split; [cbn; lia|]. split; [|split].
      * split; [reflexivity|]. exists (kn, kg). split; [apply KO; left; reflexivity|reflexivity].
      * auto.
      * exists dk. split; [exact EH|]. apply type_of_value; [exact ET|discriminate].
    + apply IK. intros n' g' K. apply KO. right. exact K.
Qed.
(** The recursion ends before the guard does if the guard allows more levels than there are objects *)
Lemma page_node_unguarded h L : (forall q, h q <> None -> In q L) -> forall n i r ps, h r <> None -> NoDup (ps ++ [r]) -> incl ps L -> (length L < n + length ps)%nat ->
  page_node n h i r ps <> Err EInvalidXRef.
Proof.
  intros HL. induction n as [|n IH]; intros i r ps E N IL LN.
  - exfalso. assert (length (ps ++ [r]) <= length L)%nat.
    { apply NoDup_incl_length; [exact N|]. intros q Q. apply in_app_iff in Q as [Q|[<-|[]]]; [apply IL, Q|apply HL, E]. }
    rewrite app_length in H. cbn [length] in H. lia.
  - cbn [page_node]. unfold dict_at. destruct (h r) as [[| | | | | | | |d]|] eqn:ER; try discriminate. cbn [bind].
    destruct (has_key (bs "Kids") d); cbn [negb]; [|discriminate]. destruct (dict_find h (bs "Kids") d) as [[| | | | | | |kids|]|]; try discriminate.
    destruct (child_count_total h d) as [(c & ->)| ->]; [|discriminate]. cbn [bind]. destruct (c <? i); [discriminate|]. clear c.
    revert i. induction kids as [|k kids IK]; intros i; [discriminate|]. cbn [find_kid]. destruct k as [| | | | | |kn kg| |]; try discriminate.
    destruct (h (kn, kg)) as [[| | | | | | | |dk]|] eqn:EH; try discriminate.
    destruct (type_of_total h dk) as [(ty & ET)|ET]; rewrite ET; [|discriminate]. cbn [bind]. destruct (beq ty (bs "Pages")).
    + destruct (child_count_total h dk) as [(c & ->)| ->]; [|discriminate]. cbn [bind]. destruct (c <? u32 (i + 1)); [apply IK|].
      cbv zeta. destruct (existsb (ref_eqb (kn, kg)) (ps ++ [r])) eqn:EC; [discriminate|]. apply IH.
      * congruence.
      * apply NoDup_app_i; [exact N|repeat constructor; auto|]. intros y Y [<-|[]]. exact (existsb_not_in _ _ EC Y).
      * intros q Q. apply in_app_iff in Q as [Q|[<-|[]]]; [apply IL, Q|apply HL; congruence].
      * rewrite app_length. cbn [length]. lia.
    + destruct (beq ty (bs "Page")); [|discriminate]. destruct (i =? 0); [discriminate|apply IK].
Qed.

(** ** Trees deeper than the guard *)
Definition chain_node (k : Z) : obj :=
  ODict (dict_add (bs "Count") (ONum 1) (dict_add (bs "Kids") (OArr [ORef (k + 1) 0])
    (dict_add (bs "Parent") (ORef (k - 1) 0) (dict_add (bs "Type") (OName (bs "Pages")) [])))).
Definition chain_page (k : Z) : obj := ODict (dict_add (bs "Parent") (ORef (k - 1) 0) (dict_add (bs "Type") (OName (bs "Page")) [])).
Definition chain_heap (m : Z) : heap := fun r =>
  if snd r =? 0 then (if (1 <=? fst r) && (fst r <=? m) then Some (chain_node (fst r)) else if fst r =? m + 1 then Some (chain_page (fst r)) else None) else None.
Fixpoint chain_tree (n : nat) (k : Z) : tree := match n with O => Leaf (k, 0) | S n' => Node (k, 0) None [chain_tree n' (k + 1)] end.
Lemma chain_leaves n : forall k, leaves (chain_tree n k) = [(k + Z.of_nat n, 0)].
Proof.
  induction n as [|n IH]; intros k; [cbn; rewrite Z.add_0_r; reflexivity|]. cbn [chain_tree leaves flat_map]. rewrite IH, app_nil_r. do 2 f_equal. lia.
Qed.
Lemma chain_tref n k : tref (chain_tree n k) = (k, 0).
Proof. destruct n; reflexivity. Qed.
Lemma chain_refs n : forall k q, In q (refs (chain_tree n k)) -> k <= fst q.
Proof.
  induction n as [|n IH]; intros k q; [intros [<-|[]]; cbn; lia|]. cbn [chain_tree refs opt app flat_map]. rewrite app_nil_r. intros [<-|I]; [cbn; lia|]. apply IH in I. lia.
Qed.
Lemma chain_nodup n : forall k, NoDup (refs (chain_tree n k)).
Proof.
  induction n as [|n IH]; intros k; [repeat constructor; auto|]. cbn [chain_tree refs opt app flat_map]. rewrite app_nil_r. constructor; [|apply IH].
  intros I. apply chain_refs in I. cbn in I. lia.
Qed.
Lemma chain_holds n : forall k m up, 1 <= k -> k + Z.of_nat n = m + 1 -> match up with Some r => r = (k - 1, 0) | None => True end -> holds (chain_heap m) up (chain_tree n k).
Proof.
  induction n as [|n IH]; intros k m up K M U.
  - cbn [chain_tree holds]. eexists. split; [unfold chain_heap; cbn [fst snd]; rewrite Z.eqb_refl|].
    { destruct (Z.leb_spec 1 k); [|lia]. destruct (Z.leb_spec k m); [lia|]. cbn [andb]. destruct (Z.eqb_spec k (m + 1)); [|lia]. reflexivity. }
    assert (S1 : sorted (dict_add (bs "Type") (OName (bs "Page")) [])) by (apply dict_add_sorted, sorted_nil).
    split; [apply dict_add_sorted, S1|]. split; [left; rewrite dict_get_add by exact S1; reflexivity|].
    destruct up as [r|]; [|exact I]. subst r. cbn [linked]. rewrite dict_get_add, beq_refl by exact S1. reflexivity.
  - cbn [chain_tree]. rewrite holds_node. split; [|constructor; [apply IH; [lia|lia|f_equal; lia]|constructor]].
    assert (S1 : sorted (dict_add (bs "Type") (OName (bs "Pages")) [])) by (apply dict_add_sorted, sorted_nil).
    assert (S2 : sorted (dict_add (bs "Parent") (ORef (k - 1) 0) (dict_add (bs "Type") (OName (bs "Pages")) []))) by (apply dict_add_sorted, S1).
    assert (S3 : sorted (dict_add (bs "Kids") (OArr [ORef (k + 1) 0]) (dict_add (bs "Parent") (ORef (k - 1) 0) (dict_add (bs "Type") (OName (bs "Pages")) [])))) by (apply dict_add_sorted, S2).
    eexists. split; [unfold chain_heap; cbn [fst snd]; rewrite Z.eqb_refl|].
    { destruct (Z.leb_spec 1 k); [|lia]. destruct (Z.leb_spec k m); [|lia]. cbn [andb]. reflexivity. }
    split; [apply dict_add_sorted, S3|]. split; [left; rewrite !dict_get_add by assumption; reflexivity|]. split.
    { destruct up as [r|]; [|exact I]. subst r. cbn [linked]. rewrite !dict_get_add by assumption. reflexivity. }
    split; [left; rewrite dict_get_add, beq_refl by assumption; cbn [flat_map]; rewrite chain_leaves; reflexivity|].
    cbn [array_at map]. rewrite chain_tref. rewrite !dict_get_add by assumption. reflexivity.
Qed.
Lemma chain_fails m : forall n k ps, 1 <= k -> k + Z.of_nat n <= m -> (forall q, In q ps -> fst q < k) -> page_node n (chain_heap m) 0 (k, 0) ps = Err EInvalidXRef.
Proof.
  induction n as [|n IH]; intros k ps K M P; [reflexivity|].
  assert (HK : forall k, 1 <= k <= m -> chain_heap m (k, 0) = Some (chain_node k)).
  { intros j J. unfold chain_heap. cbn [fst snd]. rewrite Z.eqb_refl. destruct (Z.leb_spec 1 j); [|lia]. destruct (Z.leb_spec j m); [|lia]. reflexivity. }
  cbn [page_node]. unfold dict_at. rewrite HK by lia. unfold chain_node at 1. cbn [bind].
  match goal with |- context [has_key (bs "Kids") ?x] => change (has_key (bs "Kids") x) with true end. cbn [negb].
  match goal with |- context [dict_find ?h (bs "Kids") ?x] => change (dict_find h (bs "Kids") x) with (Some (OArr [ORef (k + 1) 0])) end. cbn match.
  match goal with |- context [child_count ?h ?x] => change (child_count h x) with (Ok 1) end. cbn [bind]. change (1 <? 0) with false. cbn match.
  cbn [find_kid]. rewrite HK by lia. unfold chain_node at 1. cbn match.
  match goal with |- context [type_of ?h ?x] => change (type_of h x) with (Ok (bs "Pages")) end. cbn [bind]. change (beq (bs "Pages") (bs "Pages")) with true. cbn match.
  match goal with |- context [child_count ?h ?x] => change (child_count h x) with (Ok 1) end. cbn [bind]. change (1 <? u32 (0 + 1)) with false. cbn match. cbv zeta.
  rewrite existsb_ref. 2:{ intros X. apply in_app_iff in X as [X|[X|[]]]; [apply P in X; cbn [fst] in X; lia|injection X; lia]. }
  apply IH; [lia|lia|]. intros q Q. apply in_app_iff in Q as [Q|[<-|[]]]; [apply P in Q; lia|cbn; lia].
Qed.

(** ** Page numbers *)
Lemma number_before_ok h up k rt : forall l acc, Forall (holds h up) l -> ~ In (tref k) (map tref l) -> 0 <= acc -> acc + Z.of_nat (length (flat_map leaves l)) < 2 ^ 31 ->
  number_before h (tref k) (kids_of (l ++ k :: rt)) acc = Ok (acc + Z.of_nat (length (flat_map leaves l))).
Proof.
  induction l as [|y l IH]; intros acc F N A B; cbn [app map number_before]; unfold ptr; cbn [fst snd]; rewrite <- surjective_pairing.
  - rewrite ref_eqb_refl. cbn. rewrite Z.add_0_r. reflexivity.
  - cbn [map In] in N. destruct (ref_eqb (tref y) (tref k)) eqn:E; [apply ref_eqb_eq in E; tauto|]. apply Forall_cons_iff in F as [Hy F].
    destruct (holds_dict h up y Hy) as (d & Ed & _ & _ & V). rewrite Ed. rewrite (value_has h d "Type" _ V). rewrite (value_find h d "Type" (OName _) I V).
    cbn [flat_map] in *. rewrite len_app in *. destruct y as [r|r a ks]; cbn [kind_of].
    + change (beq (bs "Page") (bs "Pages")) with false. cbn match. cbn [leaves length] in *. rewrite u32_id by lia. rewrite IH by (auto; lia). f_equal. lia.
    + change (beq (bs "Pages") (bs "Pages")) with true. cbn match. pose proof Hy as Hy'. rewrite holds_node in Hy'. destruct Hy' as [(d' & Ed' & _ & _ & _ & Ct & _) _].
      cbn [tref] in Ed. assert (d' = d) as -> by congruence. rewrite (value_find h d "Count" (ONum _) I Ct). cbn [leaves] in *. rewrite u32_id by lia. rewrite IH by (auto; lia). f_equal. lia.
Qed.
Lemma linked_parent h up d : linked up d -> match up with Some r => forall e, h r = Some (ODict e) -> parent_of h d = Some (r, ODict e) | None => True end.
Proof.
  destruct up as [[n g]|]; [|auto]. cbn [linked]. unfold ptr, parent_of, get_key. cbn [fst snd]. intros -> e E. rewrite E. reflexivity.
Qed.
Lemma page_number_ok h root rd : forall gs t left acc d, holds h None (plug gs t) -> NoDup (refs (plug gs t)) -> tref (plug gs t) = root -> h root = Some (ODict rd) -> dict_get (bs "Parent") rd = None ->
  h (tref t) = Some (ODict d) -> (length gs <= left)%nat -> 0 <= acc -> acc + Z.of_nat (length (before gs)) < 2 ^ 31 - 1 ->
  page_number_up left h (tref t) (parent_of h d) acc = Ok (acc + Z.of_nat (length (before gs)) + 1).
Proof.
  induction gs as [|g gs IH] using rev_ind; intros t left acc d H N R ER EP Ed L A B.
  - cbn [plug] in R. rewrite R in Ed. assert (d = rd) as -> by congruence. unfold parent_of, get_key. rewrite EP. destruct left; cbn [page_number_up before length]; rewrite u32_id by (cbn in B; lia); f_equal; cbn; lia.
  - rewrite plug_app in *. cbn [plug] in *. rewrite app_length in L. cbn [length] in L. rewrite before_app, len_app in *. cbn [before] in *. rewrite app_nil_r in *.
    destruct (holds_focus h _ gs None H) as (u & HF). pose proof HF as HF'. rewrite holds_node in HF'. destruct HF' as [(dg & Eg & _ & _ & _ & _ & Ar) HK].
    apply Forall_app in HK as [HL HK]. apply Forall_cons_iff in HK as [HT _].
    destruct (holds_dict h _ t HT) as (d' & Ed' & _ & Lk & _). assert (d' = d) as -> by congruence.
    pose proof (linked_parent h (Some (fr g)) d Lk dg Eg) as PO. rewrite PO. destruct left as [|left]; [lia|]. cbn [page_number_up].
    rewrite (array_find h _ dg _ Ar). rewrite (number_before_ok h (Some (fr g)) t (frt g) (fl g) acc HL).
    + cbn [bind]. pose proof (IH (Node (fr g) (fa g) (fl g ++ t :: frt g)) left (acc + Z.of_nat (length (flat_map leaves (fl g)))) dg H N R ER EP Eg) as X. cbn [tref] in X. rewrite X by lia. f_equal. lia.
    + intros X. apply trefs_in in X. rewrite nodup_plug in N. apply NoDup_app_r, NoDup_app_r in N. cbn [refs] in N. apply NoDup_cons_iff in N as [_ N]. apply NoDup_app_r in N.
      rewrite refs_app in N. eapply NoDup_app_d; [exact N|exact X|]. cbn [flat_map]. apply in_app_iff. left. apply tref_in.
    + exact A.
    + lia.
Qed.
Lemma plug_depth gs t : (length gs <= depth (plug gs t))%nat.
Proof.
  induction gs as [|g gs IH]; [cbn; lia|]. cbn [plug length]. rewrite depth_node, deepest_app. cbn [deepest fold_right]. lia.
Qed.
Lemma leaf_split : forall t i, match t with Leaf _ => False | _ => True end -> (i < length (leaves t))%nat -> exists gs x, t = plug gs (Leaf x) /\ length (before gs) = i /\ nth_error (leaves t) i = Some x.
Proof.
  induction t as [r|r a ks IH] using tree_ind2; intros i NT L; [destruct NT|]. clear NT.
  assert (X : forall ks l i, Forall (fun t => forall i, match t with Leaf _ => False | _ => True end -> (i < length (leaves t))%nat -> exists gs x, t = plug gs (Leaf x) /\ length (before gs) = i /\ nth_error (leaves t) i = Some x) ks ->
    (i < length (flat_map leaves ks))%nat -> exists gs x, Node r a (l ++ ks) = plug gs (Leaf x) /\ length (before gs) = (length (flat_map leaves l) + i)%nat /\ nth_error (flat_map leaves ks) i = Some x).
  { clear. induction ks as [|k ks IK]; intros l i F L; [cbn in L; lia|]. apply Forall_cons_iff in F as [Fk F]. cbn [flat_map] in *. rewrite app_length in L.
    destruct (Nat.lt_ge_cases i (length (leaves k))) as [M|M].
    - rewrite nth_error_app1 by exact M. destruct k as [x|x b kk].
      + cbn [leaves length] in M. assert (i = 0)%nat as -> by lia. exists [mk_fr r a l ks], x. split; [reflexivity|]. cbn [before fl]. rewrite app_nil_r, Nat.add_0_r. split; reflexivity.
      + destruct (Fk i I M) as (gs & y & E & Lb & Nt). exists (mk_fr r a l ks :: gs), y. cbn [plug fr fa fl frt before]. rewrite <- E. split; [reflexivity|]. rewrite app_length. split; [lia|exact Nt].
    - rewrite nth_error_app2 by exact M. destruct (IK (l ++ [k]) (i - length (leaves k))%nat F ltac:(lia)) as (gs & x & E & Lb & Nt). exists gs, x.
      rewrite <- app_assoc in E. split; [exact E|]. split; [|exact Nt]. rewrite Lb, flat_map_app, app_length. cbn [flat_map]. rewrite app_nil_r. lia. }
  destruct (X ks [] i IH L) as (gs & x & E & Lb & Nt). exists gs, x. auto.
Qed.
Lemma numbers_ok h root t rd i x : page_tree h root t -> (depth t <= 1000)%nat -> Z.of_nat (length (leaves t)) < 2 ^ 31 ->
  h root = Some (ODict rd) -> dict_get (bs "Parent") rd = None -> 0 <= i -> nth_error (leaves t) (Z.to_nat i) = Some x -> page_number h x = Ok (i + 1).
Proof.
  intros (H & N & R & TN) D B ER EP I0 NT. pose proof (nth_error_in_range (leaves t) i I0) as Rg. rewrite NT in Rg.
  destruct (leaf_split t (Z.to_nat i) TN ltac:(lia)) as (gs & y & ET & Lb & Ny). assert (y = x) as -> by congruence. clear Ny.
  destruct (holds_focus h (Leaf x) gs None ltac:(rewrite <- ET; exact H)) as (u & HF). destruct (holds_dict h u (Leaf x) HF) as (d & Ed & _). cbn [tref] in Ed.
  unfold page_number. rewrite (dict_at_ok h x d Ed). cbn [bind].
  pose proof (page_number_ok h root rd gs (Leaf x) 1000 0 d) as P. cbn [tref] in P. rewrite <- ET in P. rewrite P; auto; try lia.
  - f_equal. lia.
  - pose proof (plug_depth gs (Leaf x)) as X. rewrite <- ET in X. lia.
Qed.

(** ** Inherited resources *)
Lemma has_entry_find h r k v d : has_entry h r k v -> h r = Some (ODict d) -> dict_find h (bs k) d = Some v.
Proof.
  intros (d' & E & N & [V|([n g] & V & G)]) E'; assert (d' = d) as -> by congruence; unfold dict_find, get_key; rewrite V; [|exact G].
  destruct v; try reflexivity. elim (N n g eq_refl).
Qed.
Lemma last_resources_app h a b f x : last_resources h a f = Ok x -> last_resources h (a ++ b) f = last_resources h b x.
Proof.
  revert f; induction a as [|p a IH]; intros f; [intros [= ->]; reflexivity|]. cbn [app last_resources]. destruct (dict_at h p) as [d| | |]; try discriminate. cbn [bind]. apply IH.
Qed.
Lemma last_resources_total h : forall ps f, Forall (fun p => exists d, h p = Some (ODict d)) ps -> exists x, last_resources h ps f = Ok x.
Proof.
  induction ps as [|p ps IH]; intros f F; [cbn; eauto|]. apply Forall_cons_iff in F as [(d & E) F]. cbn [last_resources]. rewrite (dict_at_ok h p d E). cbn [bind]. apply IH, F.
Qed.
Lemma resources_own h page ps v : has_entry h page "Resources" v -> page_resources h page ps = Ok (Some v).
Proof.
  intros H. pose proof H as (d & E & _). unfold page_resources. rewrite (dict_at_ok h page d E). cbn [bind]. rewrite (has_entry_find h page "Resources" v d H E). reflexivity.
Qed.
Lemma lacks_find h r k d : lacks_entry h r k -> h r = Some (ODict d) -> dict_find h (bs k) d = None.
Proof. intros (d' & E & G) E'. assert (d' = d) as -> by congruence. unfold dict_find, get_key. rewrite G. reflexivity. Qed.
Lemma resources_near h page ps v : Forall (fun q => exists d, h q = Some (ODict d)) ps -> inherits h "Resources" (firstn 2 (page :: rev ps)) v ->
  page_resources h page ps = Ok (Some v).
Proof.
  intros F H. cbn [firstn] in H. inversion H as [r up w W|r up w LK W]; subst; [apply resources_own, W|].
  destruct (rev ps) as [|p rp] eqn:ER; [inversion W|]. cbn [firstn] in W. assert (HE : has_entry h p "Resources" v).
  { inversion W as [r up w X|r up w LX X]; subst; [exact X|]. inversion X. }
  assert (EP : ps = rev rp ++ [p]) by (rewrite <- (rev_involutive ps), ER; reflexivity). subst ps. clear ER H W.
  apply Forall_app in F as [F _]. pose proof LK as (d & E & _). unfold page_resources. rewrite (dict_at_ok h page d E). cbn [bind]. rewrite (lacks_find h page "Resources" d LK E).
  destruct (last_resources_total h (rev rp) None F) as (x & X). rewrite (last_resources_app h (rev rp) [p] None x X). cbn [last_resources].
  pose proof HE as (dp & Ep & _). rewrite (dict_at_ok h p dp Ep). cbn [bind]. rewrite (has_entry_find h p "Resources" v dp HE Ep). reflexivity.
Qed.
Lemma resources_none h page ps : Forall (fun q => lacks_entry h q "Resources") (page :: ps) -> page_resources h page ps = Ok None.
Proof.
  intros F. apply Forall_cons_iff in F as [LK F]. pose proof LK as (d & E & _). unfold page_resources. rewrite (dict_at_ok h page d E). cbn [bind]. rewrite (lacks_find h page "Resources" d LK E).
  induction F as [|p ps LP F IH]; [reflexivity|]. cbn [last_resources]. pose proof LP as (dp & Ep & _). rewrite (dict_at_ok h p dp Ep). cbn [bind]. rewrite (lacks_find h p "Resources" dp LP Ep). exact IH.
Qed.

(** ** Put together *)
Lemma tree_ops max h root t : page_tree h root t -> (depth t <= max)%nat -> Z.of_nat (length (leaves t)) < 2 ^ 31 ->
  count_at h root = Ok (Z.of_nat (length (leaves t))) /\
  (forall i, 0 <= i ->
    match nth_error (leaves t) (Z.to_nat i) with
    | Some r => exists ps, page_node max h i root [] = Ok (Some (r, ps))
    | None => page_node max h i root [] = Ok None
    end) /\
  (forall i ps, 0 <= i -> insertable h (leaves t) ps ->
    exists i' h' t', insert_pages_at max root h i ps = Ok (Some (i', h')) /\
      page_tree h' root t' /\ leaves t' = insert_at (Nat.min (Z.to_nat i) (length (leaves t))) ps (leaves t) /\ (depth t' <= depth t)%nat /\
      (forall q, ~ In q (refs t) -> ~ In q ps -> h' q = h q) /\ (forall q, In q (leaves t) -> h' q = h q) /\
      (forall p d, In p ps -> h p = Some (ODict d) -> exists up, h' p = Some (ODict (dict_add (bs "Parent") (ptr up) d)))) /\
  (forall i, 0 <= i ->
    if i <? Z.of_nat (length (leaves t))
    then exists h' t', remove_page_at max root h i = Ok h' /\
      page_tree h' root t' /\ leaves t' = remove_at (Z.to_nat i) (leaves t) /\ (depth t' <= depth t)%nat /\
      (forall q, ~ In q (refs t) -> h' q = h q) /\ (forall q, In q (leaves t) -> h' q = h q)
    else remove_page_at max root h i = Err EPageNotFound).
Proof.
  intros PT D B.
  assert (NN : forall i, Z.of_nat (length (leaves t)) <= i -> page_node max h i root [] = Ok None).
  { intros i J. destruct (page_root h root t PT) as (a & ks & d & -> & _ & HH). eapply node_find_none; eauto. }
  split; [apply count_root; assumption|]. split; [|split].
  - intros i I0. pose proof (nth_error_in_range (leaves t) i I0) as Rg. destruct (nth_error (leaves t) (Z.to_nat i)) as [r|] eqn:E; [|apply NN; lia].
    destruct (find_page max h root t i PT D ltac:(lia) B) as (gs & f & x & _ & BF & LV & PN). exists (map fr gs ++ [fr f]). rewrite PN. do 3 f_equal.
    rewrite LV in E. rewrite <- BF, Nat2Z.id, nth_error_app2, Nat.sub_diag in E by lia. cbn in E. congruence.
  - intros i ps I0 INS. destruct (insert_ok max h root t i ps PT D INS I0) as (h' & t' & R & P1 & P2 & P3 & _ & P4 & P5 & P6). eexists. exists h', t'. split; [exact R|]. auto 10.
  - intros i I0. destruct (Z.ltb_spec i (Z.of_nat (length (leaves t)))) as [L|L].
    + destruct (remove_ok max h root t i PT D B ltac:(lia)) as (h' & t' & R & P1 & P2 & P3 & _ & _ & P4 & P5). exists h', t'. auto 10.
    + unfold remove_page_at. rewrite NN by exact L. reflexivity.
Qed.
Lemma any_graph max h root i : h root <> None ->
  match page_node max h i root [] with
  | Ok (Some (page, ps)) => kid_chain h root ps page /\ ps <> [] /\ NoDup ps /\ (length ps <= max)%nat /\
      exists d, h page = Some (ODict d) /\ value_of h d "Type" (OName (bs "Page"))
  | Ok None => True
  | Err _ => True
  | UB => False
  | Fuel => False
  end.
Proof.
  intros E. pose proof (page_node_ok h max i root [] ltac:(destruct (h root); [eauto|congruence])) as F. unfold found_ok in F.
  destruct (page_node max h i root []) as [[[page ps]|]| | |]; auto. destruct F as (path & EP & NE & L & K & N & X). cbn [app] in EP. subst path.
  split; [exact K|]. split; [exact NE|]. split; [apply N; repeat constructor; auto|]. auto.
Qed.
Lemma any_unguarded max h root i l : h root <> None -> (forall q, h q <> None -> In q l) -> (length l < max)%nat -> page_node max h i root [] <> Err EInvalidXRef.
Proof.
  intros E HL L. apply (page_node_unguarded h l HL); [exact E|repeat constructor; auto|intros q []|cbn; lia].
Qed.
Lemma chain_depth n : forall k, depth (chain_tree n k) = n.
Proof. induction n as [|n IH]; intros k; [reflexivity|]. cbn [chain_tree]. cbn [depth fold_right]. rewrite IH. lia. Qed.
Lemma deep_fails max : exists h root t r, page_tree h root t /\ leaves t = [r] /\ depth t = S max /\ count_at h root = Ok 1 /\ page_node max h 0 root [] = Err EInvalidXRef /\
  forall ps, insertable h [r] ps -> insert_pages_at max root h 0 ps = Err EInvalidXRef.
Proof.
  exists (chain_heap (Z.of_nat (S max))), (1, 0), (chain_tree (S max) 1), (1 + Z.of_nat (S max), 0).
  assert (PT : page_tree (chain_heap (Z.of_nat (S max))) (1, 0) (chain_tree (S max) 1)).
  { split; [apply chain_holds; [lia|lia|exact I]|]. split; [apply chain_nodup|]. split; [apply chain_tref|]. exact I. }
  assert (PN : page_node max (chain_heap (Z.of_nat (S max))) 0 (1, 0) [] = Err EInvalidXRef) by (apply chain_fails; [lia|lia|intros q []]).
  assert (CT : count_at (chain_heap (Z.of_nat (S max))) (1, 0) = Ok 1).
  { pose proof (count_root _ _ _ PT) as C. rewrite chain_leaves in C. apply C. cbn. lia. }
  split; [exact PT|]. split; [apply chain_leaves|]. split; [apply chain_depth|]. split; [exact CT|]. split; [exact PN|].
  intros ps _. unfold insert_pages_at. rewrite CT. cbn [bind]. change (negb (1 =? 0) && (1 <=? 0)) with false. change (1 =? 0) with false. cbv zeta. cbn match. rewrite PN. reflexivity.
Qed.
Lemma history_ok max root h l s s' l' : doc_pages max h root l -> Z.of_nat (length l) < 2 ^ 31 -> open_pages max root h = Ok s -> steps s l s' l' ->
  doc_pages max (pheap s') root l' /\ page_count s' = Ok (Z.of_nat (length l')) /\
  (forall i, 0 <= i ->
    match nth_error l' (Z.to_nat i) with
    | Some r => (exists j s'', get_page_at s' i = (Ok (r, j), s'')) /\ exists ps, page_node max (pheap s') i root [] = Ok (Some (r, ps))
    | None => exists s'', get_page_at s' i = (Err EPageNotFound, s'')
    end) /\
  (forall r, exists s'', (In r l' -> exists j, get_page_ref s' r = (Ok (r, j), s'')) /\ (~ In r l' -> get_page_ref s' r = (Err EPageNotFound, s''))) /\
  (forall i ps, 0 <= i -> insertable (pheap s') l' ps -> exists s'', insert_pages s' i ps = Ok s'') /\
  (forall i r box, 0 <= i -> pheap s' r = None -> Z.of_nat (length l' + 1) < 2 ^ 31 -> exists s'', create_page_at s' i r box = Ok s'') /\
  (forall i, 0 <= i < Z.of_nat (length l') -> exists s'', remove_page s' i = (Ok tt, s'')).
Proof.
  intros DP B O St. destruct (open_good max root h l DP B) as (s0 & O' & G & PM & PR & PH). assert (s0 = s) as -> by congruence.
  destruct (steps_good s l s' l' G St) as (G' & M' & R'). pose proof G' as ((t & PT & LV & D) & B' & _). rewrite M', PM in D. rewrite R', PR in PT.
  split; [exists t; auto|]. split; [apply count_ok, G'|]. split; [|split; [|split; [|split]]].
  - intros i I0. destruct (get_at_ok s' l' i G' I0) as (s'' & _ & _ & X). destruct (nth_error l' (Z.to_nat i)) as [r|] eqn:E; [|eauto].
    destruct X as (j & X). split; [eauto|]. rewrite <- LV in E, B'. destruct (tree_ops max (pheap s') root t PT D B') as (_ & F & _). specialize (F i I0). rewrite E in F. exact F.
  - intros r. destruct (find_ref_ok s' l' r G') as (s'' & _ & _ & X). eauto.
  - intros i ps I0 INS. destruct (insert_good s' l' i ps G' I0 INS) as (s'' & X & _). eauto.
  - intros i r box I0 E L. destruct (create_good s' l' i r box G' I0 E L) as (s'' & X & _). eauto.
  - intros i I0. destruct (remove_good s' l' i G' ltac:(lia)) as (s'' & X & _). destruct (Z.ltb_spec i (Z.of_nat (length l'))); [|lia]. eauto.
Qed.
Lemma opens max root h l : doc_pages max h root l -> Z.of_nat (length l) < 2 ^ 31 -> exists s, open_pages max root h = Ok s.
Proof. intros DP B. destruct (open_good max root h l DP B) as (s & O & _). eauto. Qed.
Lemma ok_value {A} (d : A) (r : res A) x : r = Ok x -> x = match r with Ok y => y | _ => d end.
Proof. intros ->. reflexivity. Qed.
Lemma number_before_ends h self : forall kids acc, match number_before h self kids acc with UB | Fuel => False | _ => True end.
Proof.
  induction kids as [|o kids IH]; intros acc; cbn [number_before]; [exact I|]. destruct o; try exact I. destruct (ref_eqb (n, g) self); [exact I|].
  destruct (h (n, g)) as [[]|]; try exact I. destruct (has_key (bs "Type") d); [|apply IH]. destruct (dict_find h (bs "Type") d) as [[]|]; try exact I.
  match goal with |- context [beq ?s (bs "Pages")] => destruct (beq s (bs "Pages")) end; [|apply IH]. destruct (dict_find h (bs "Count") d) as [[]|]; try exact I; apply IH.
Qed.
Lemma number_up_ends h : forall left self parent acc, match page_number_up left h self parent acc with UB | Fuel => False | _ => True end.
Proof.
  induction left as [|left IH]; intros self parent acc; destruct parent as [[r []]|]; try exact I; cbn [page_number_up];
    (destruct (dict_find h (bs "Kids") d) as [[]|]; cbn [bind]; try exact I); try apply IH;
    match goal with |- context [number_before h self ?xs acc] => pose proof (number_before_ends h self xs acc) as X; destruct (number_before h self xs acc) end; cbn [bind]; try exact I; try apply IH; destruct X.
Qed.
Lemma number_ends h page : match page_number h page with UB | Fuel => h page = None | _ => True end.
Proof.
  unfold page_number, dict_at. destruct (h page) as [[]|]; cbn [bind]; auto. pose proof (number_up_ends h 1000 page (parent_of h d) 0) as X.
  destruct (page_number_up 1000 h page (parent_of h d) 0); auto; destruct X.
Qed.
