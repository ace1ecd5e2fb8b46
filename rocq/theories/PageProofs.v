(** Page trees: fetching, counting *)
From Coq Require Import String.
From Verif Require Import Base ChainProofs TokModel DictProofs OwnModel ListModel PageModel PageSpec.
Local Open Scope Z_scope.
Local Notation dict := (list (list Z * obj)) (only parsing).

Section TreeInd.
Variable P : tree -> Prop.
Hypothesis HL : forall r, P (Leaf r).
Hypothesis HN : forall r a ks, Forall P ks -> P (Node r a ks).
Fixpoint tree_ind2 (t : tree) : P t :=
  match t with
  | Leaf r => HL r
  | Node r a ks => HN r a ks ((fix go l : Forall P l := match l with [] => Forall_nil P | k :: l' => Forall_cons k (tree_ind2 k) (go l') end) ks)
  end.
End TreeInd.

(** ** References and heaps *)
Lemma ref_eqb_refl r : ref_eqb r r = true.
Proof. unfold ref_eqb. rewrite !Z.eqb_refl. reflexivity. Qed.
Lemma ref_eqb_eq a b : ref_eqb a b = true <-> a = b.
Proof.
  destruct a as [a1 a2], b as [b1 b2]. unfold ref_eqb. cbn [fst snd]. rewrite andb_true_iff, !Z.eqb_eq. split; [intros [-> ->]|intros [= -> ->]]; auto.
Qed.
Lemma ref_eqb_neq a b : ref_eqb a b = false <-> a <> b.
Proof. rewrite <- ref_eqb_eq. destruct (ref_eqb a b); split; congruence. Qed.
Lemma ref_dec (a b : ref) : {a = b} + {a <> b}.
Proof. destruct (ref_eqb a b) eqn:E; [left; apply ref_eqb_eq, E|right; apply ref_eqb_neq, E]. Qed.
Lemma set_same r o h : set r o h r = o.
Proof. unfold set. rewrite ref_eqb_refl. reflexivity. Qed.
Lemma set_other r o h q : q <> r -> set r o h q = h q.
Proof. intros N. unfold set. apply ref_eqb_neq in N. rewrite N. reflexivity. Qed.
Lemma ptr_inj a b : ptr a = ptr b -> a = b.
Proof. destruct a, b. unfold ptr. cbn. intros [= -> ->]. reflexivity. Qed.

Definition scalar (v : obj) : Prop := match v with ONum _ | OName _ => True | _ => False end.
(** Objects that are numbers or names stay *)
Definition keeps (h h' : heap) : Prop := forall r v, h r = Some v -> scalar v -> h' r = Some v.
Lemma keeps_refl h : keeps h h.
Proof. intros r v H _. exact H. Qed.
Lemma keeps_trans a b c : keeps a b -> keeps b c -> keeps a c.
Proof. intros H K r v G V. apply K; [apply H|]; assumption. Qed.
Lemma keeps_set h r o : (forall v, h r = Some v -> ~ scalar v) -> keeps h (set r o h).
Proof.
  intros N q v G V. destruct (ref_dec q r) as [->|D]; [|rewrite set_other by exact D; exact G]. elim (N v G V).
Qed.
Lemma keeps_dict h r o d : h r = Some (ODict d) -> keeps h (set r o h).
Proof. intros E. apply keeps_set. rewrite E. intros v [= <-] []. Qed.
Lemma keeps_arr h r o d : h r = Some (OArr d) -> keeps h (set r o h).
Proof. intros E. apply keeps_set. rewrite E. intros v [= <-] []. Qed.

Lemma value_keeps h h' d k v : keeps h h' -> scalar v -> value_of h d k v -> value_of h' d k v.
Proof. intros K V [H|(r & H & G)]; [left; exact H|right]. exists r. split; [exact H|]. apply K; assumption. Qed.
Lemma value_find h d k v : scalar v -> value_of h d k v -> dict_find h (bs k) d = Some v.
Proof.
  intros V [H|([n g] & H & G)]; unfold dict_find, get_key; rewrite H; [destruct v; try destruct V; reflexivity|exact G].
Qed.
Lemma value_det h d k v w : scalar v -> scalar w -> value_of h d k v -> value_of h d k w -> v = w.
Proof. intros V W A B. apply value_find in A, B; auto. congruence. Qed.
Lemma value_get h d e k v : dict_get (bs k) d = dict_get (bs k) e -> value_of h d k v -> value_of h e k v.
Proof. unfold value_of. intros ->. auto. Qed.
Lemma value_has h d k v : value_of h d k v -> has_key (bs k) d = true.
Proof. unfold has_key. intros [-> |(r & -> & _)]; reflexivity. Qed.

Lemma array_find h a d l : array_at h a d l -> dict_find h (bs "Kids") d = Some (OArr l).
Proof. destruct a as [[n g]|]; unfold array_at, dict_find, get_key; [intros [-> E]; exact E|intros ->; reflexivity]. Qed.
Lemma array_has h a d l : array_at h a d l -> has_key (bs "Kids") d = true.
Proof. unfold has_key, array_at. destruct a; [intros [-> _]|intros ->]; reflexivity. Qed.

(** ** Holding *)
Definition node_ok (h : heap) (up : option ref) (r : ref) (a : option ref) (ks : list tree) (d : dict) : Prop :=
  h r = Some (ODict d) /\ sorted d /\ value_of h d "Type" (OName (bs "Pages")) /\ linked up d /\
  value_of h d "Count" (ONum (Z.of_nat (length (flat_map leaves ks)))) /\ array_at h a d (map (fun k => ptr (tref k)) ks).
Lemma holds_node h up r a ks : holds h up (Node r a ks) <-> (exists d, node_ok h up r a ks d) /\ Forall (holds h (Some r)) ks.
Proof.
  cbn [holds]. split; intros [D K]; (split; [exact D|]); clear D.
  - induction ks as [|k ks IH]; constructor; [apply K|apply IH, K].
  - induction K; [exact I|split; assumption].
Qed.
Definition kind_of (t : tree) : string := match t with Leaf _ => "Page" | Node _ _ _ => "Pages" end.
Lemma holds_dict h up t : holds h up t ->
  exists d, h (tref t) = Some (ODict d) /\ sorted d /\ linked up d /\ value_of h d "Type" (OName (bs (kind_of t))).
Proof.
  destruct t as [r|r a ks]; cbn [tref kind_of].
  - intros (d & H). exists d. intuition.
  - rewrite holds_node. intros [(d & H) _]. exists d. unfold node_ok in H. intuition.
Qed.
Lemma tref_in t : In (tref t) (refs t).
Proof. destruct t; left; reflexivity. Qed.
Lemma refs_kid r a ks k q : In k ks -> In q (refs k) -> In q (refs (Node r a ks)).
Proof. intros I Q. cbn [refs]. right. apply in_app_iff. right. apply in_flat_map. exists k. auto. Qed.
Lemma leaf_in t : forall q, In q (leaves t) -> In q (refs t).
Proof.
  induction t as [r|r a ks IH] using tree_ind2; intros q; [auto|]. cbn [leaves]. intros H. apply in_flat_map in H as (k & K & Q).
  rewrite Forall_forall in IH. eapply refs_kid; [exact K|]. apply IH; assumption.
Qed.

Lemma holds_ext t : forall h h' up, (forall q, In q (refs t) -> h' q = h q) -> keeps h h' -> holds h up t -> holds h' up t.
Proof.
  induction t as [r|r a ks IH] using tree_ind2; intros h h' up E K H.
  - destruct H as (d & H1 & H2 & H3 & H4). exists d. rewrite E by (left; reflexivity).
    repeat split; auto. eapply value_keeps; [exact K|exact I|exact H3].
  - rewrite holds_node in H |- *. destruct H as [(d & H1 & H2 & H3 & H4 & H5 & H6) HK]. split.
    + exists d. unfold node_ok. rewrite E by (left; reflexivity). repeat split; auto.
      * eapply value_keeps; [exact K|exact I|exact H3].
      * eapply value_keeps; [exact K|exact I|exact H5].
      * destruct a as [q|]; cbn [array_at] in *; [|exact H6]. destruct H6 as [G1 G2]. split; [exact G1|].
        rewrite E; [exact G2|]. cbn [refs opt]. right. left. reflexivity.
    + rewrite Forall_forall in *. intros k I. apply IH with (h := h); auto. intros q Q. apply E. eapply refs_kid; eassumption.
Qed.

(** ** Paths *)
Record frame := mk_fr { fr : ref; fa : option ref; fl : list tree; frt : list tree }.
Fixpoint plug (fs : list frame) (t : tree) : tree :=
  match fs with [] => t | f :: fs' => Node (fr f) (fa f) (fl f ++ plug fs' t :: frt f) end.
Fixpoint before (fs : list frame) : list ref := match fs with [] => [] | f :: fs' => flat_map leaves (fl f) ++ before fs' end.
Fixpoint behind (fs : list frame) : list ref := match fs with [] => [] | f :: fs' => behind fs' ++ flat_map leaves (frt f) end.
Lemma leaves_plug fs t : leaves (plug fs t) = before fs ++ leaves t ++ behind fs.
Proof.
  induction fs as [|f fs IH]; cbn [plug leaves before behind]; [rewrite app_nil_r; reflexivity|].
  rewrite flat_map_app. cbn [flat_map]. rewrite IH, !app_assoc. reflexivity.
Qed.
Lemma plug_app fs gs t : plug (fs ++ gs) t = plug fs (plug gs t).
Proof. induction fs as [|f fs IH]; [reflexivity|]. cbn [app plug]. rewrite IH. reflexivity. Qed.
Lemma refs_app l r : flat_map refs (l ++ r) = flat_map refs l ++ flat_map refs r.
Proof. apply flat_map_app. Qed.

(** ** Fetching *)
Lemma u32_id z : 0 <= z < 2 ^ 32 -> u32 z = z.
Proof. intros H. unfold u32. apply Z.mod_small, H. Qed.
Lemma type_holds h up t d : holds h up t -> h (tref t) = Some (ODict d) -> type_of h d = Ok (bs (kind_of t)).
Proof.
  intros H E. destruct (holds_dict h up t H) as (d' & E' & _ & _ & V). assert (d' = d) as -> by congruence.
  unfold type_of. rewrite (value_find h d "Type" (OName _) I V). reflexivity.
Qed.
Lemma count_holds h up r a ks d : holds h up (Node r a ks) -> h r = Some (ODict d) -> Z.of_nat (length (leaves (Node r a ks))) < 2 ^ 31 ->
  child_count h d = Ok (Z.of_nat (length (leaves (Node r a ks)))).
Proof.
  intros H E B. rewrite holds_node in H. destruct H as [(d' & E' & _ & _ & _ & V & _) _]. assert (d' = d) as -> by congruence.
  unfold child_count. rewrite (value_find h d "Count" (ONum _) I V). cbn [leaves] in *. rewrite u32_id by lia. reflexivity.
Qed.

Lemma len_app {A} (l k : list A) : Z.of_nat (length (l ++ k)) = Z.of_nat (length l) + Z.of_nat (length k).
Proof. rewrite app_length. lia. Qed.

Lemma find_kid_none rec h self ps up : forall ks i, Forall (holds h up) ks -> Z.of_nat (length (flat_map leaves ks)) <= i < 2 ^ 31 ->
  find_kid rec h self ps (map (fun k => ptr (tref k)) ks) i = Ok None.
Proof.
  induction ks as [|k ks IH]; intros i F B; [reflexivity|]. apply Forall_cons_iff in F as [Hk F]. cbn [flat_map] in B. rewrite len_app in B.
  cbn [map find_kid]. unfold ptr at 1. rewrite <- surjective_pairing. destruct (holds_dict h up k Hk) as (d & E & _). rewrite E.
  rewrite (type_holds h up k d Hk E). cbn [bind]. destruct k as [r|r a kk]; cbn [kind_of tref] in *.
  - cbn [leaves length] in B. change (beq (bs "Page") (bs "Pages")) with false. change (beq (bs "Page") (bs "Page")) with true. cbn match.
    destruct (Z.eqb_spec i 0); [lia|]. apply IH; [exact F|lia].
  - change (beq (bs "Pages") (bs "Pages")) with true. cbn match. rewrite (count_holds h up r a kk d Hk E) by lia. cbn [bind].
    rewrite u32_id by lia. destruct (Z.ltb_spec (Z.of_nat (length (leaves (Node r a kk)))) (i + 1)); [|lia].
    rewrite u32_id by lia. apply IH; [exact F|lia].
Qed.
Lemma find_kid_some rec h self ps up : forall ks i, Forall (holds h up) ks -> 0 <= i < Z.of_nat (length (flat_map leaves ks)) -> Z.of_nat (length (flat_map leaves ks)) < 2 ^ 31 ->
  exists l k r, ks = l ++ k :: r /\ let j := i - Z.of_nat (length (flat_map leaves l)) in
    0 <= j < Z.of_nat (length (leaves k)) /\
    find_kid rec h self ps (map (fun k => ptr (tref k)) ks) i =
      match k with
      | Leaf x => Ok (Some (x, ps ++ [self]))
      | Node x _ _ => if existsb (ref_eqb x) (ps ++ [self]) then Err EPageNotFound else rec j x (ps ++ [self])
      end.
Proof.
  induction ks as [|k ks IH]; intros i F B M; [cbn in B; lia|]. apply Forall_cons_iff in F as [Hk F]. cbn [flat_map] in B, M. rewrite len_app in B, M.
  cbn [map find_kid]. unfold ptr at 1. rewrite <- surjective_pairing. destruct (holds_dict h up k Hk) as (d & E & _). rewrite E.
  rewrite (type_holds h up k d Hk E). cbn [bind].
  destruct (Z.ltb_spec i (Z.of_nat (length (leaves k)))) as [L|L].
  - exists [], k, ks. split; [reflexivity|]. cbn [flat_map length Z.of_nat]. rewrite Z.sub_0_r. split; [lia|].
    destruct k as [r|r a kk]; cbn [kind_of tref] in *.
    + cbn [leaves length] in L. change (beq (bs "Page") (bs "Pages")) with false. change (beq (bs "Page") (bs "Page")) with true. cbn match.
      destruct (Z.eqb_spec i 0); [|lia]. reflexivity.
    + change (beq (bs "Pages") (bs "Pages")) with true. cbn match. rewrite (count_holds h up r a kk d Hk E) by lia. cbn [bind].
      rewrite u32_id by lia. destruct (Z.ltb_spec (Z.of_nat (length (leaves (Node r a kk)))) (i + 1)); [lia|]. cbv zeta.
      reflexivity.
  - destruct (IH (i - Z.of_nat (length (leaves k))) F ltac:(lia) ltac:(lia)) as (l & k' & r & -> & Hj & R).
    exists (k :: l), k', r. split; [reflexivity|]. cbn [flat_map]. rewrite len_app. cbv zeta in *.
    replace (i - (Z.of_nat (length (leaves k)) + Z.of_nat (length (flat_map leaves l)))) with (i - Z.of_nat (length (leaves k)) - Z.of_nat (length (flat_map leaves l))) by lia.
    split; [exact Hj|]. rewrite <- R. destruct k as [x|x a kk]; cbn [kind_of tref] in *.
    + cbn [leaves length] in *. change (beq (bs "Page") (bs "Pages")) with false. change (beq (bs "Page") (bs "Page")) with true. cbn match.
      destruct (Z.eqb_spec i 0); [lia|]. reflexivity.
    + change (beq (bs "Pages") (bs "Pages")) with true. cbn match. rewrite (count_holds h up x a kk d Hk E) by lia. cbn [bind].
      rewrite (u32_id (i + 1)) by lia. destruct (Z.ltb_spec (Z.of_nat (length (leaves (Node x a kk)))) (i + 1)); [|lia].
      rewrite u32_id by lia. reflexivity.
Qed.

Lemma depth_kid r a ks k : In k ks -> (depth k < depth (Node r a ks))%nat.
Proof.
  intros I. cbn [depth]. apply Nat.lt_succ_r. induction ks as [|k' ks IH]; [destruct I|]. cbn [fold_right].
  destruct I as [->|I]; [lia|]. specialize (IH I). lia.
Qed.
Lemma existsb_ref x l : ~ In x l -> existsb (ref_eqb x) l = false.
Proof.
  intros N. destruct (existsb (ref_eqb x) l) eqn:E; [|reflexivity]. apply existsb_exists in E as (y & I & Y). apply ref_eqb_eq in Y. subst y. elim (N I).
Qed.
Lemma NoDup_app_l {A} (l k : list A) : NoDup (l ++ k) -> NoDup l.
Proof. induction l as [|x l IH]; [constructor|]. cbn. intros H. inversion H; subst. constructor; [|auto]. rewrite in_app_iff in *. tauto. Qed.
Lemma NoDup_app_r {A} (l k : list A) : NoDup (l ++ k) -> NoDup k.
Proof. induction l as [|x l IH]; [auto|]. cbn. intros H. inversion H; auto. Qed.
Lemma NoDup_app_d {A} (l k : list A) x : NoDup (l ++ k) -> In x l -> ~ In x k.
Proof. induction l as [|y l IH]; [intros _ []|]. cbn. intros H [->|I]; inversion H; subst; [rewrite in_app_iff in *; tauto|auto]. Qed.
Lemma NoDup_app_i {A} (l k : list A) : NoDup l -> NoDup k -> (forall x, In x l -> ~ In x k) -> NoDup (l ++ k).
Proof.
  induction l as [|y l IH]; [auto|]. intros L K D. cbn. inversion L; subst. constructor.
  - rewrite in_app_iff. intros [X|X]; [tauto|]. elim (D y); [left; reflexivity|exact X].
  - apply IH; auto. intros x X. apply D. right. exact X.
Qed.

Lemma node_find t : forall h up n ps i, holds h up t -> (depth t <= n)%nat -> NoDup (refs t) -> (forall q, In q ps -> ~ In q (refs t)) ->
  match t with Leaf _ => False | Node _ _ _ => True end ->
  0 <= i < Z.of_nat (length (leaves t)) -> Z.of_nat (length (leaves t)) < 2 ^ 31 ->
  exists fs x, t = plug fs (Leaf x) /\ fs <> [] /\ Z.of_nat (length (before fs)) = i /\
    page_node n h i (tref t) ps = Ok (Some (x, ps ++ map fr fs)).
Proof.
  induction t as [r|r a ks IH] using tree_ind2; intros h up n ps i H D N P NT B M; [destruct NT|].
  destruct n as [|n]; [cbn in D; lia|]. cbn [page_node tref].
  pose proof H as H'. rewrite holds_node in H'. destruct H' as [(d & E & Sd & Ty & Lk & Ct & Ar) HK].
  unfold dict_at. rewrite E. cbn [bind]. rewrite (array_has h a d _ Ar). cbn [negb]. rewrite (array_find h a d _ Ar).
  rewrite (count_holds h up r a ks d H E M). cbn [bind]. destruct (Z.ltb_spec (Z.of_nat (length (leaves (Node r a ks)))) i); [lia|].
  destruct (find_kid_some (page_node n h) h r ps (Some r) ks i HK) as (l & k & rt & -> & Hj & R); [cbn [leaves] in *; lia|cbn [leaves] in *; lia|].
  rewrite R. cbv zeta in *.
  apply Forall_app in HK as [_ HK]. apply Forall_cons_iff in HK as [Hk _].
  cbn [refs] in N. rewrite refs_app in N. cbn [flat_map] in N.
  assert (NR : ~ In r (refs k)) by (apply NoDup_cons_iff in N as [N _]; rewrite !in_app_iff in N; tauto).
  assert (NK : NoDup (refs k)).
  { apply NoDup_cons_iff in N as [_ N]. apply NoDup_app_r in N. apply NoDup_app_r in N. apply NoDup_app_l in N. exact N. }
  assert (Q : forall q, In q (ps ++ [r]) -> ~ In q (refs k)).
  { intros q I. apply in_app_iff in I as [I|[<-|[]]]; [|exact NR]. intros X. apply (P q I). eapply refs_kid; [|exact X].
    apply in_app_iff. right. left. reflexivity. }
  destruct k as [x|x a' kk].
  - exists [mk_fr r a l rt], x. split; [reflexivity|]. split; [discriminate|]. cbn [before map fr fl app].
    rewrite app_nil_r. cbn [leaves length] in Hj. split; [lia|reflexivity].
  - rewrite existsb_ref by (intros X; apply (Q x X); left; reflexivity).
    rewrite Forall_forall in IH. specialize (IH (Node x a' kk) ltac:(apply in_app_iff; right; left; reflexivity)).
    pose proof (depth_kid r a (l ++ Node x a' kk :: rt) (Node x a' kk) ltac:(apply in_app_iff; right; left; reflexivity)) as DK.
    cbn [leaves] in M. rewrite flat_map_app in M. cbn [flat_map] in M. rewrite !len_app in M.
    destruct (IH h (Some r) n (ps ++ [r]) (i - Z.of_nat (length (flat_map leaves l))) Hk ltac:(lia) NK Q I Hj ltac:(cbn [leaves] in *; lia)) as (fs & y & T & F & Bf & Pn).
    exists (mk_fr r a l rt :: fs), y. cbn [plug fr fa fl frt before map]. rewrite <- T. split; [reflexivity|]. split; [discriminate|].
    split; [rewrite len_app; lia|]. cbn [tref] in Pn. rewrite Pn, <- app_assoc. reflexivity.
Qed.
Lemma node_find_none h up r a ks n ps i : holds h up (Node r a ks) -> (depth (Node r a ks) <= n)%nat ->
  Z.of_nat (length (leaves (Node r a ks))) < 2 ^ 31 -> Z.of_nat (length (leaves (Node r a ks))) <= i -> page_node n h i r ps = Ok None.
Proof.
  intros H D M B. destruct n as [|n]; [cbn in D; lia|]. cbn [page_node].
  pose proof H as H'. rewrite holds_node in H'. destruct H' as [(d & E & Sd & Ty & Lk & Ct & Ar) HK].
  unfold dict_at. rewrite E. cbn [bind]. rewrite (array_has h a d _ Ar). cbn [negb]. rewrite (array_find h a d _ Ar).
  rewrite (count_holds h up r a ks d H E) by lia. cbn [bind]. destruct (Z.ltb_spec (Z.of_nat (length (leaves (Node r a ks)))) i); [reflexivity|].
  eapply find_kid_none; [exact HK|]. cbn [leaves] in *. lia.
Qed.

(** ** Changing counts *)
Lemma dict_at_ok h r d : h r = Some (ODict d) -> dict_at h r = Ok d.
Proof. intros E. unfold dict_at. rewrite E. reflexivity. Qed.
Lemma set_key_ok h r k v d : h r = Some (ODict d) -> set_key h r k v = Ok (set r (Some (ODict (dict_add k v d))) h).
Proof. intros E. unfold set_key. rewrite (dict_at_ok h r d E). reflexivity. Qed.
Lemma bs_neq a b : beq (bs a) (bs b) = false -> bs a <> bs b.
Proof. apply beq_neq. Qed.

Lemma change_counts_ok delta : delta <> 0 -> - 2 ^ 31 <= delta < 2 ^ 31 -> forall rs h, NoDup rs ->
  (forall r, In r rs -> exists d c, h r = Some (ODict d) /\ value_of h d "Count" (ONum c) /\ 0 <= c < 2 ^ 31 /\ 0 <= c + delta < 2 ^ 31) ->
  exists h', change_counts h rs delta = Ok h' /\ keeps h h' /\ (forall r, ~ In r rs -> h' r = h r) /\
    (forall r d c, In r rs -> h r = Some (ODict d) -> value_of h d "Count" (ONum c) -> h' r = Some (ODict (dict_add (bs "Count") (ONum (c + delta)) d))).
Proof.
  intros DZ DB. induction rs as [|r rs IH]; intros h N C.
  - exists h. split; [reflexivity|]. split; [apply keeps_refl|]. split; [auto|]. intros ? ? ? [].
  - destruct (C r ltac:(left; reflexivity)) as (d & c & E & V & B1 & B2). apply NoDup_cons_iff in N as [NR N].
    set (h1 := set r (Some (ODict (dict_add (bs "Count") (ONum (c + delta)) d))) h).
    assert (K1 : keeps h h1) by (eapply keeps_dict, E).
    destruct (IH h1 N) as (h' & R & K & O & W).
    { intros q Q. destruct (C q ltac:(right; exact Q)) as (e & c' & E' & V' & B'). exists e, c'. unfold h1. rewrite set_other by congruence.
      split; [exact E'|]. split; [|exact B']. eapply value_keeps; [exact K1|exact I|exact V']. }
    exists h'. split.
    { cbn [change_counts]. unfold change_count, count_at. rewrite (dict_at_ok h r d E). cbn [bind]. unfold child_count.
      rewrite (value_find h d "Count" (ONum _) I V). cbn [bind]. rewrite u32_id by lia. destruct (Z.eqb_spec delta 0); [lia|].
      unfold to_int, int_ok. destruct (Z.ltb_spec c (2 ^ 31)); [|lia].
      destruct (Z.leb_spec (- 2 ^ 31) (c + delta)); [|lia]. destruct (Z.ltb_spec (c + delta) (2 ^ 31)); [|lia]. cbn [andb negb].
      rewrite (set_key_ok h r _ _ d E). cbn [bind]. exact R. }
    split; [eapply keeps_trans; eassumption|]. split.
    { intros q Q. rewrite O by (intros X; apply Q; right; exact X). unfold h1. apply set_other. intros ->. apply Q. left. reflexivity. }
    intros q e c' Q E' V'. destruct (ref_dec q r) as [->|D].
    + assert (e = d) as -> by congruence. assert (c' = c) as -> by (pose proof (value_det h d "Count" (ONum c') (ONum c) I I V' V); congruence).
      rewrite O by exact NR. unfold h1. apply set_same.
    + destruct Q as [Q|Q]; [congruence|]. apply W; [exact Q|unfold h1; rewrite set_other by exact D; exact E'|].
      eapply value_keeps; [exact K1|exact I|exact V'].
Qed.

(** ** Putting a changed tree back *)
Definition recount (h h' : heap) (delta : Z) (r : ref) : Prop :=
  forall d, h r = Some (ODict d) -> sorted d -> exists d', h' r = Some (ODict d') /\ sorted d' /\
    (forall k, bs k <> bs "Count" -> dict_get (bs k) d' = dict_get (bs k) d) /\
    (forall c, value_of h d "Count" (ONum c) -> value_of h' d' "Count" (ONum (c + delta))).
Fixpoint ctx_refs (gs : list frame) : list ref :=
  match gs with [] => [] | g :: gs' => opt (fa g) ++ flat_map refs (fl g) ++ flat_map refs (frt g) ++ ctx_refs gs' end.
Lemma tref_plug gs t t' : tref t' = tref t -> tref (plug gs t') = tref (plug gs t).
Proof. destruct gs; [auto|reflexivity]. Qed.
Lemma linked_get up d d' : dict_get (bs "Parent") d' = dict_get (bs "Parent") d -> linked up d -> linked up d'.
Proof. destruct up; cbn [linked]; [intros ->|]; auto. Qed.
Lemma array_ext h h' a d d' l : dict_get (bs "Kids") d' = dict_get (bs "Kids") d -> (forall q, In q (opt a) -> h' q = h q) -> array_at h a d l -> array_at h' a d' l.
Proof. destruct a as [q|]; cbn [array_at opt]; intros -> E; [|auto]. rewrite E by (left; reflexivity). auto. Qed.
Lemma plug_holds h h' delta t t' : keeps h h' -> tref t' = tref t ->
  Z.of_nat (length (leaves t')) = Z.of_nat (length (leaves t)) + delta -> (forall u, holds h u t -> holds h' u t') ->
  forall gs up, holds h up (plug gs t) -> (forall r, In r (map fr gs) -> recount h h' delta r) ->
  (forall r, In r (ctx_refs gs) -> h' r = h r) -> holds h' up (plug gs t').
Proof.
  intros K TR LV HT. induction gs as [|g gs IH]; intros up H RC CX; [apply HT, H|].
  cbn [plug] in *. rewrite holds_node in H |- *. destruct H as [(d & E & Sd & Ty & Lk & Ct & Ar) HK].
  cbn [map] in RC. destruct (RC (fr g) ltac:(left; reflexivity) d E Sd) as (d' & E' & Sd' & G & C').
  cbn [ctx_refs] in CX. split.
  - exists d'. split; [exact E'|]. split; [exact Sd'|]. split.
    { eapply value_get; [symmetry; apply G; apply bs_neq; reflexivity|]. eapply value_keeps; [exact K|exact I|exact Ty]. }
    split; [eapply linked_get; [apply G, bs_neq; reflexivity|exact Lk]|]. split.
    { specialize (C' _ Ct). replace (Z.of_nat (length (flat_map leaves (fl g ++ plug gs t' :: frt g)))) with (Z.of_nat (length (flat_map leaves (fl g ++ plug gs t :: frt g))) + delta); [exact C'|].
      rewrite !flat_map_app. cbn [flat_map]. rewrite !leaves_plug, !len_app. lia. }
    eapply array_ext; [apply G, bs_neq; reflexivity|intros q Q; apply CX, in_app_iff; left; exact Q|].
    rewrite map_app in *. cbn [map] in *. rewrite (tref_plug gs t t' TR). exact Ar.
  - apply Forall_app in HK as [HL HK]. apply Forall_cons_iff in HK as [HM HR]. apply Forall_app. split; [|constructor].
    + rewrite Forall_forall in *. intros k IK. eapply holds_ext; [|exact K|apply HL, IK]. intros q Q. apply CX.
      apply in_app_iff; right; apply in_app_iff; left. apply in_flat_map. exists k. auto.
    + apply IH; [exact HM|intros r R; apply RC; right; exact R|]. intros r R. apply CX.
      apply in_app_iff; right; apply in_app_iff; right; apply in_app_iff; right. exact R.
    + rewrite Forall_forall in *. intros k IK. eapply holds_ext; [|exact K|apply HR, IK]. intros q Q. apply CX.
      apply in_app_iff; right; apply in_app_iff; right; apply in_app_iff; left. apply in_flat_map. exists k. auto.
Qed.
