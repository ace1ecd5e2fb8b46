(** Lemmas on XMP packets *)
From Coq Require Import String Lia.
From Verif Require Import Base TokModel TextModel DateModel ChainProofs XmpModel XmpSpec.
Local Open Scope Z_scope.

Lemma xml_ind2 (P : xml -> Prop) : (forall s, P (XText s)) -> P XComment ->
  (forall n m a k, Forall P k -> P (XElem n m a k)) -> forall x, P x.
Proof.
  intros HT HC HE. fix IH 1. intros [s| |n m a k]; [apply HT|apply HC|]. apply HE.
  induction k as [|x k IHk]; constructor; [apply IH|exact IHk].
Qed.

(** ** Tags *)

Definition tagb (pre name : list Z) (x : xml) : bool :=
  match x with XElem (Ns (Some p)) nm _ _ => beq p pre && beq nm name | _ => false end.
Definition safe (x : xml) : Prop := match x with XElem (Ns None) _ _ _ => False | _ => True end.
Lemma is_tag_ok pre name x : safe x -> is_tag pre name x = Ok (tagb pre name x).
Proof. destruct x as [| |[|[p|]] nm a k]; cbn [safe is_tag tagb]; intros H; try destruct H; reflexivity. Qed.
Lemma tagb_named pre name x : tagb pre name x = true <-> elem_named pre name x.
Proof.
  unfold elem_named. destruct x as [| |[|[p|]] nm a k]; cbn [tagb]; split; intros H; try discriminate H; try (destruct H as (a' & k' & H); discriminate H).
  - apply andb_prop in H. destruct H as [H1 H2]. apply beq_eq in H1, H2. subst. exists a, k. reflexivity.
  - destruct H as (a' & k' & H). injection H as -> -> _ _. rewrite !beq_refl. reflexivity.
Qed.
Lemma find_child_filter pre name kids : Forall safe kids ->
  match filter (tagb pre name) kids with
  | [] => find_child pre name kids = Ok None
  | x :: t => exists l r, kids = l ++ x :: r /\ find_child pre name kids = Ok (Some (l, x, r)) /\ filter (tagb pre name) l = [] /\
      filter (tagb pre name) r = t
  end.
Proof.
  induction kids as [|x kids IH]; intros H; [reflexivity|]. inversion H as [|? ? Hx Hk]; subst. specialize (IH Hk).
  cbn [filter find_child]. rewrite (is_tag_ok _ _ _ Hx). cbn [bind]. destruct (tagb pre name x) eqn:E.
  - exists [], kids. repeat split; reflexivity.
  - destruct (filter (tagb pre name) kids) as [|y t].
    + rewrite IH. reflexivity.
    + destruct IH as (l & r & -> & Hf & Hl & Hr). exists (x :: l), r. rewrite Hf. cbn [bind filter]. rewrite E. repeat split; assumption.
Qed.
Lemma elem_filter k kids : Forall safe kids -> elem k kids = Ok (hd_error (filter (tagb (fst (tag k)) (snd (tag k))) kids)).
Proof.
  intros H. unfold elem. pose proof (find_child_filter (fst (tag k)) (snd (tag k)) kids H) as G.
  destruct (filter _ kids) as [|x t]; [rewrite G; reflexivity|]. destruct G as (l & r & _ & -> & _). reflexivity.
Qed.

(** ** Normal forms *)

Lemma prefixed_safe x : prefixed x -> safe x.
Proof. intros [s| |n m a k H _]; try exact Logic.I. destruct n as [|[p|]]; try exact Logic.I. destruct (H eq_refl). Qed.
Lemma prefixed_all l : Forall prefixed l -> Forall safe l.
Proof. intros H. eapply Forall_impl; [|exact H]. exact prefixed_safe. Qed.
Lemma norm_elem_shape n name attrs kids new : exists a k, norm_elem n name attrs kids new = XElem n name a k.
Proof. unfold norm_elem. destruct (is_resource attrs); eauto. Qed.
Lemma norm_shape e n name attrs kids y : norm e (XElem n name attrs kids) = Ok y -> exists a k, y = XElem n name a k.
Proof.
  cbn [norm]. destruct (is_leaf kids).
  - intros H. apply bind_ok in H. destruct H as (k & _ & H). apply ok_inj in H. subst y. destruct k; [eauto|apply norm_elem_shape].
  - intros H. apply bind_ok in H. destruct H as (k' & _ & H). apply bind_ok in H. destruct H as (nw & _ & H). apply ok_inj in H. subst y.
    apply norm_elem_shape.
Qed.
Lemma norm_new_shape e n name attrs kids y : norm_new e (XElem n name attrs kids) = Ok y -> exists a k, y = XElem n name a k.
Proof.
  cbn [norm_new]. destruct (is_leaf kids).
  - intros H. apply bind_ok in H. destruct H as (k & _ & H). apply ok_inj in H. subst y. destruct k; eauto.
  - intros H. apply ok_inj in H. subst y. eauto.
Qed.
(** The tag of an element stays *)
Definition same_tag (x y : xml) : Prop := match x with XElem n name _ _ => exists a k, y = XElem n name a k | _ => y = x end.
Lemma norm_tag e x y : norm e x = Ok y -> same_tag x y.
Proof. destruct x as [s| |n m a k]; intros H; [apply ok_inj in H; symmetry; exact H|apply ok_inj in H; symmetry; exact H|exact (norm_shape _ _ _ _ _ _ H)]. Qed.
Lemma norm_new_tag e x y : norm_new e x = Ok y -> same_tag x y.
Proof. destruct x as [s| |n m a k]; intros H; [apply ok_inj in H; symmetry; exact H|apply ok_inj in H; symmetry; exact H|exact (norm_new_shape _ _ _ _ _ _ H)]. Qed.
Lemma same_refl x : same_tag x x.
Proof. destruct x as [s| |n m a k]; cbn; eauto. Qed.
Lemma same_tagb pre name x y : same_tag x y -> tagb pre name y = tagb pre name x.
Proof. destruct x as [s| |n m a k]; cbn [same_tag]; intros H; [subst; reflexivity|subst; reflexivity|]. destruct H as (a' & k' & ->). reflexivity. Qed.
Lemma same_elem x y : same_tag x y -> is_elem y = is_elem x.
Proof. destruct x as [s| |n m a k]; cbn [same_tag]; intros H; [subst; reflexivity|subst; reflexivity|]. destruct H as (a' & k' & ->). reflexivity. Qed.
Lemma same_safe x y : same_tag x y -> safe x -> safe y.
Proof. destruct x as [s| |n m a k]; cbn [same_tag]; intros H; [subst; auto|subst; auto|]. destruct H as (a' & k' & ->). destruct n as [|[p|]]; auto. Qed.

Lemma each_ok {A B} (f : A -> res B) l l' : each f l = Ok l' -> Forall2 (fun x y => f x = Ok y) l l'.
Proof.
  revert l'. induction l as [|x l IH]; intros l' H.
  - apply ok_inj in H. subst. constructor.
  - cbn [each] in H. apply bind_ok in H. destruct H as (y & Hy & H). apply bind_ok in H. destruct H as (r & Hr & H). apply ok_inj in H. subst l'.
    constructor; [exact Hy|exact (IH _ Hr)].
Qed.
Lemma each_total {A B} (f : A -> res B) l : Forall (fun x => exists y, f x = Ok y) l -> exists l', each f l = Ok l'.
Proof.
  induction l as [|x l IH]; intros H; [eexists; reflexivity|]. inversion H as [|? ? [y Hy] Hl]; subst. destruct (IH Hl) as [r Hr].
  cbn [each]. rewrite Hy. cbn [bind]. rewrite Hr. eexists. reflexivity.
Qed.
Lemma known_total n name : n <> Ns None -> exists k, known_list n name = Ok k.
Proof. destruct n as [|[p|]]; intros H; [eexists; reflexivity|eexists; reflexivity|destruct (H eq_refl)]. Qed.
Lemma norm_new_total e x : safe x -> exists y, norm_new e x = Ok y.
Proof.
  destruct x as [s| |n m a k]; intros H; try (eexists; reflexivity). cbn [norm_new].
  assert (N : n <> Ns None) by (intros ->; exact H).
  destruct (is_leaf k); [|eexists; reflexivity]. destruct (known_total n m N) as [t ->]. eexists. reflexivity.
Qed.
Lemma new_safe e n attrs : n <> Ns None -> Forall safe (new_elems e n attrs).
Proof.
  intros N. unfold new_elems. destruct (is_resource attrs); [constructor|]. apply Forall_forall. intros x Hx. apply in_map_iff in Hx.
  destruct Hx as (a & <- & _). unfold attr_elem. destruct (fst (fst a)); [exact Logic.I|]. destruct n as [|[p|]]; try exact Logic.I. destruct (N eq_refl).
Qed.
Lemma norm_total e x : prefixed x -> exists y, norm e x = Ok y.
Proof.
  induction x as [s| |n m a k IH] using xml_ind2; intros H; try (eexists; reflexivity).
  inversion H as [| |? ? ? ? N K]; subst. cbn [norm].
  destruct (is_leaf k); [destruct (known_total n m N) as [t ->]; eexists; reflexivity|].
  destruct (each_total (norm e) k) as [k' Hk'].
  { rewrite Forall_forall in *. intros x Hx. exact (IH x Hx (K x Hx)). }
  rewrite Hk'. cbn [bind].
  assert (G : exists nw, (if existsb is_elem k then each (norm_new e) (new_elems e n a) else Ok (new_elems e n a)) = Ok nw).
  { destruct (existsb is_elem k); [|eexists; reflexivity]. apply each_total. pose proof (new_safe e n a N) as S0. rewrite Forall_forall in *.
    intros x Hx. apply norm_new_total, S0, Hx. }
  destruct G as [nw ->]. eexists. reflexivity.
Qed.

(** Elements that stay as they are *)
Lemma technical_skip a : technical a -> skip_attr a = true.
Proof. destruct a as [[p n] v]. unfold technical, skip_attr, attr_name. cbn [fst snd]. intros [H|[H|H]]; injection H as -> ->; reflexivity. Qed.
Lemma technical_resource a : Forall technical a -> is_resource a = None.
Proof.
  intros H. unfold is_resource. assert (E : parse_type a = None); [|rewrite E; reflexivity].
  induction H as [|[[p n] v] t Hx Ht IH]; [reflexivity|]. cbn [parse_type]. rewrite IH. destruct Hx as [E|[E|E]]; cbn [fst] in E; injection E as -> ->; reflexivity.
Qed.
Lemma filter_all {A} (f : A -> bool) l : Forall (fun x => f x = true) l -> filter f l = l.
Proof. induction 1 as [|x l Hx Hl IH]; [reflexivity|]. cbn [filter]. rewrite Hx, IH. reflexivity. Qed.
Lemma filter_none {A} (f : A -> bool) l : Forall (fun x => f x = false) l -> filter f l = [].
Proof. induction 1 as [|x l Hx Hl IH]; [reflexivity|]. cbn [filter]. rewrite Hx. exact IH. Qed.
Lemma technical_new e n a : Forall technical a -> new_elems e n a = [] /\ filter skip_attr a = a.
Proof.
  intros H. unfold new_elems. rewrite (technical_resource a H). rewrite filter_none.
  - split; [reflexivity|]. apply filter_all. eapply Forall_impl; [|exact H]. exact technical_skip.
  - eapply Forall_impl; [|exact H]. intros x Hx. cbn beta. rewrite (technical_skip x Hx). reflexivity.
Qed.
Lemma text_kids_no_elem v : existsb is_elem (text_kids v) = false.
Proof. destruct v; reflexivity. Qed.
Lemma text_kids_content v : flat_map content (text_kids v) = v.
Proof. destruct v; [reflexivity|]. cbn [text_kids flat_map content]. apply app_nil_r. Qed.
Lemma norm_simple e p m a v : known_list (Ns (Some p)) m = Ok None -> Forall technical a ->
  norm e (XElem (Ns (Some p)) m a (text_kids v)) = Ok (XElem (Ns (Some p)) m a (text_kids v)).
Proof.
  intros K T. destruct (technical_new e (Ns (Some p)) a T) as [N F]. cbn [norm]. rewrite K. cbn [bind].
  unfold norm_elem. rewrite (technical_resource a T), N, F, app_nil_r. destruct (is_leaf (text_kids v)); [reflexivity|].
  assert (E : each (norm e) (text_kids v) = Ok (text_kids v)) by (destruct v; reflexivity). rewrite E. cbn [bind].
  rewrite text_kids_no_elem. cbn [bind]. rewrite app_nil_r. reflexivity.
Qed.
Lemma is_leaf_elem x l : is_elem x = true -> is_leaf (x :: l) = false.
Proof. intros H. unfold is_leaf. cbn [existsb]. rewrite H. reflexivity. Qed.
Lemma norm_unfold e n name attrs kids : is_leaf kids = false -> norm e (XElem n name attrs kids) =
  (do kids' <- each (norm e) kids;
   do new <- (if existsb is_elem kids then each (norm_new e) (new_elems e n attrs) else Ok (new_elems e n attrs));
   Ok (norm_elem n name attrs kids' new)).
Proof. intros H. cbn [norm]. rewrite H. reflexivity. Qed.
Lemma norm_holder e p m a x more y : Forall technical a -> is_elem x = true -> norm e (XElem p m a (x :: more)) = Ok y ->
  exists x' more', norm e x = Ok x' /\ y = XElem p m a (x' :: more').
Proof.
  intros A X H. rewrite norm_unfold in H by (apply is_leaf_elem, X). destruct (technical_new e p a A) as [NA FA]. rewrite NA in H.
  apply bind_ok in H. destruct H as (k & Hk & H). cbn [each] in Hk. apply bind_ok in Hk. destruct Hk as (x' & Hx & Hk).
  apply bind_ok in Hk. destruct Hk as (t & _ & Hk). apply ok_inj in Hk. subst k. exists x', t. split; [exact Hx|].
  apply bind_ok in H. destruct H as (nw & Hn & H). apply ok_inj in H. subst y. unfold norm_elem. rewrite (technical_resource a A), FA.
  assert (E : nw = []). { destruct (existsb is_elem (x :: more)); apply ok_inj in Hn; symmetry; exact Hn. } rewrite E, app_nil_r. reflexivity.
Qed.
Lemma norm_is_elem e x y : norm e x = Ok y -> is_elem y = is_elem x.
Proof. intros H. apply same_elem. exact (norm_tag _ _ _ H). Qed.
Lemma norm_list e p m a n l b c more v y : Forall technical a -> Forall technical b -> Forall technical c ->
  norm e (XElem p m a [XElem n l b (XElem (Ns (Some (bs "rdf"))) (bs "li") c (text_kids v) :: more)]) = Ok y -> list_text y = Some v.
Proof.
  intros A B C H. apply norm_holder in H; [|exact A|reflexivity]. destruct H as (x' & more' & Hx & ->).
  apply norm_holder in Hx; [|exact B|reflexivity]. destruct Hx as (li & more2 & Hl & ->).
  rewrite (norm_simple e (bs "rdf") (bs "li") c v eq_refl C) in Hl. apply ok_inj in Hl. subst li.
  unfold list_text, first_elem. cbn [kids_of List.find is_elem]. cbn [content]. rewrite text_kids_content. reflexivity.
Qed.

(** ** Descriptions *)

Lemma plain_content e v : plain v -> set_content e v = text_kids v.
Proof.
  intros [HA HZ]. unfold set_content. assert (C : LinkModel.c_str v = v).
  { clear HA. induction v as [|c v IH]; [reflexivity|]. cbn [LinkModel.c_str]. destruct c; [destruct HZ; left; reflexivity| |];
      rewrite IH; try reflexivity; intros Hin; apply HZ; right; exact Hin. }
  rewrite C. assert (E : entities v = Some v).
  { clear HZ C. induction v as [|c v IH]; [reflexivity|].
    assert (N : c <> 38) by (intros ->; apply HA; left; reflexivity).
    assert (IH' : entities v = Some v) by (apply IH; intros Hin; apply HA; right; exact Hin).
    destruct c as [|q|q]; cbn [entities]; try (rewrite IH'; reflexivity).
    do 6 (destruct q as [q|q|]; try (rewrite IH'; reflexivity)). destruct (N eq_refl). }
  rewrite E. destruct v; reflexivity.
Qed.
Lemma no_parse_type attrs : Forall (fun a : attr => fst a <> (Some (bs "rdf"), bs "parseType")) attrs -> is_resource attrs = None.
Proof.
  intros H. unfold is_resource. assert (E : parse_type attrs = None); [|rewrite E; reflexivity].
  induction H as [|[[p n] v] t Hx Ht IH]; [reflexivity|]. cbn [parse_type]. rewrite IH. cbn [fst] in Hx.
  destruct p as [p|]; [|reflexivity]. destruct (beq p (bs "rdf") && beq n (bs "parseType")) eqn:E; [|reflexivity].
  apply andb_prop in E. destruct E as [E1 E2]. apply beq_eq in E1, E2. subst. destruct (Hx eq_refl).
Qed.
Definition keeps (e : env) (a : attr) (y : xml) : Prop := y = attr_elem e rdf_ns a \/ norm_new e (attr_elem e rdf_ns a) = Ok y.
Lemma norm_desc e attrs kids d : is_description attrs kids d -> prefixed d -> exists kids' new,
  norm e d = Ok (XElem rdf_ns (bs "Description") (filter skip_attr attrs) (kids' ++ new)) /\
  Forall2 (fun x y => norm e x = Ok y) kids kids' /\ Forall2 (keeps e) (filter (fun a => negb (skip_attr a)) attrs) new.
Proof.
  intros (-> & K & A) P. inversion P as [| |? ? ? ? N PK]; subst.
  assert (R : is_resource attrs = None).
  { apply no_parse_type. eapply Forall_impl; [|exact A]. intros a [H _]. exact H. }
  assert (L : is_leaf kids = false).
  { destruct kids as [|x kids]; [reflexivity|]. apply is_leaf_elem. inversion K as [|? ? (n & m & a & k & ->) _]; subst. reflexivity. }
  destruct (norm_total e (XElem rdf_ns (bs "Description") attrs kids)) as [y Hy]; [constructor; assumption|].
  change (Ns (Some (bs "rdf"))) with rdf_ns. rewrite Hy. rewrite (norm_unfold _ _ _ _ _ L) in Hy.
  apply bind_ok in Hy. destruct Hy as (kids' & Hk & Hy). apply bind_ok in Hy. destruct Hy as (new & Hn & Hy). apply ok_inj in Hy. subst y.
  exists kids', new. unfold norm_elem. rewrite R. split; [reflexivity|]. split; [exact (each_ok _ _ _ Hk)|].
  assert (NE : new_elems e rdf_ns attrs = map (attr_elem e rdf_ns) (filter (fun a => negb (skip_attr a)) attrs)) by (unfold new_elems; rewrite R; reflexivity).
  rewrite NE in Hn. destruct (existsb is_elem kids).
  - apply each_ok in Hn. clear - Hn. revert new Hn. induction (filter _ attrs) as [|a t IH]; intros new Hn.
    + inversion Hn; subst. constructor.
    + inversion Hn as [|? ? ? ? Ha Ht]; subst. constructor; [right; exact Ha|apply IH, Ht].
  - apply ok_inj in Hn. subst new. clear. induction (filter _ attrs) as [|a t IH]; [constructor|]. constructor; [left; reflexivity|exact IH].
Qed.
Lemma keeps_tag e a y : keeps e a y -> same_tag (attr_elem e rdf_ns a) y.
Proof. intros [->|H]; [apply same_refl|exact (norm_new_tag _ _ _ H)]. Qed.

Section Property.
Variables (e : env) (pre name : list Z).
Hypothesis not_rdf : beq pre (bs "rdf") = false.
Hypothesis unknown : known_list (Ns (Some pre)) name = Ok None.
Hypothesis property : forall v, skip_attr (Some pre, name, v) = false.
Let T := tagb pre name.

Lemma attr_tag a : tagb pre name (attr_elem e rdf_ns a) = true <-> attr_named pre name a.
Proof.
  destruct a as [[p n] v]. unfold attr_elem, attr_named. cbn [fst snd]. destruct p as [p|]; cbn [tagb].
  - split; intros H.
    + apply andb_prop in H. destruct H as [H1 H2]. apply beq_eq in H1, H2. subst. reflexivity.
    + injection H as -> ->. rewrite !beq_refl. reflexivity.
  - unfold rdf_ns. split; intros H; [|discriminate H]. apply andb_prop in H. destruct H as [H1 _]. apply beq_eq in H1. rewrite <- H1 in not_rdf.
    rewrite beq_refl in not_rdf. discriminate not_rdf.
Qed.
Lemma kids_none kids kids' : Forall2 (fun x y => norm e x = Ok y) kids kids' -> Forall (fun x => ~ elem_named pre name x) kids ->
  filter (tagb pre name) kids' = [].
Proof.
  induction 1 as [|x y l l' Hxy Hl IH]; intros F; [reflexivity|]. inversion F as [|? ? Hx Ht]; subst. cbn [filter].
  rewrite (same_tagb _ _ _ _ (norm_tag _ _ _ Hxy)). destruct (tagb pre name x) eqn:E; [destruct (Hx (proj1 (tagb_named _ _ _) E))|exact (IH Ht)].
Qed.
Lemma attrs_none attrs new : Forall2 (keeps e) attrs new -> Forall (fun a => ~ attr_named pre name a) attrs -> filter (tagb pre name) new = [].
Proof.
  induction 1 as [|x y l l' Hxy Hl IH]; intros F; [reflexivity|]. inversion F as [|? ? Hx Ht]; subst. cbn [filter].
  rewrite (same_tagb _ _ _ _ (keeps_tag _ _ _ Hxy)). destruct (tagb pre name (attr_elem e rdf_ns x)) eqn:E; [|exact (IH Ht)].
  destruct (Hx (proj1 (attr_tag x) E)).
Qed.
Lemma Forall_filter {A} (P : A -> Prop) f l : Forall P l -> Forall P (filter f l).
Proof. intros H. rewrite Forall_forall in *. intros x Hx. apply filter_In in Hx. apply H. tauto. Qed.
Lemma Forall2_split {A B} (R : A -> B -> Prop) l1 x l2 l' : Forall2 R (l1 ++ x :: l2) l' ->
  exists l1' y l2', l' = l1' ++ y :: l2' /\ Forall2 R l1 l1' /\ R x y /\ Forall2 R l2 l2'.
Proof.
  intros H. apply Forall2_app_inv_l in H. destruct H as (l1' & r & H1 & H2 & ->). inversion H2 as [|? y ? l2' Hy Hl]; subst.
  exists l1', y, l2'. repeat split; assumption.
Qed.
(** What a description becomes, as far as one property is concerned *)
Definition desc_has (d : xml) (ys : list xml) : Prop :=
  exists a K, norm e d = Ok (XElem rdf_ns (bs "Description") a K) /\ Forall safe K /\ Forall (fun x => is_elem x = true) K /\ filter (tagb pre name) K = ys.
Lemma desc_shape attrs kids d kids' new : is_description attrs kids d -> prefixed d ->
  Forall2 (fun x y => norm e x = Ok y) kids kids' -> Forall2 (keeps e) (filter (fun a => negb (skip_attr a)) attrs) new ->
  Forall safe (kids' ++ new) /\ Forall (fun x => is_elem x = true) (kids' ++ new).
Proof.
  intros (-> & K & _) P HK HN. inversion P as [| |? ? ? ? N PK]; subst. split; apply Forall_app; split.
  - clear - HK PK. induction HK as [|x y l l' Hxy Hl IH]; [constructor|]. inversion PK as [|? ? Hx Ht]; subst. constructor; [|exact (IH Ht)].
    exact (same_safe _ _ (norm_tag _ _ _ Hxy) (prefixed_safe _ Hx)).
  - clear - HN. induction HN as [|x y l l' Hxy Hl IH]; [constructor|]. constructor; [|exact IH].
    apply (same_safe _ _ (keeps_tag _ _ _ Hxy)). unfold attr_elem. destruct (fst (fst x)); exact Logic.I.
  - clear - HK K. induction HK as [|x y l l' Hxy Hl IH]; [constructor|]. inversion K as [|? ? (n & m & a & k & ->) Ht]; subst. constructor; [|exact (IH Ht)].
    rewrite (same_elem _ _ (norm_tag _ _ _ Hxy)). reflexivity.
  - clear - HN. induction HN as [|x y l l' Hxy Hl IH]; [constructor|]. constructor; [|exact IH].
    rewrite (same_elem _ _ (keeps_tag _ _ _ Hxy)). reflexivity.
Qed.
Lemma silent_has d : silent pre name d -> prefixed d -> desc_has d [].
Proof.
  intros (attrs & kids & D & A & K) P. destruct (norm_desc e attrs kids d D P) as (kids' & new & HN & HK & HA).
  destruct (desc_shape _ _ _ _ _ D P HK HA) as [S1 S2].
  exists (filter skip_attr attrs), (kids' ++ new). split; [exact HN|]. split; [exact S1|]. split; [exact S2|].
  rewrite filter_app, (kids_none _ _ HK K), (attrs_none _ _ HA (Forall_filter _ _ _ A)). reflexivity.
Qed.
Lemma filter_mid (l1 : list xml) y l2 : filter (tagb pre name) l1 = [] -> filter (tagb pre name) l2 = [] -> tagb pre name y = true ->
  filter (tagb pre name) (l1 ++ y :: l2) = [y].
Proof. intros H1 H2 Hy. rewrite filter_app. cbn [filter]. rewrite Hy, H1, H2. reflexivity. Qed.
Lemma says_has d v : says pre name v d -> prefixed d -> exists y, desc_has d [y] /\ content y = v /\ first_elem y = None.
Proof.
  intros [d0 a1 a2 kids D A K|d0 attrs k1 a k2 D T0 A K] P.
  - destruct (norm_desc e _ kids d0 D P) as (kids' & new & HN & HK & HA). destruct (desc_shape _ _ _ _ _ D P HK HA) as [S1 S2].
    rewrite filter_app in HA. cbn [filter] in HA. rewrite property in HA. cbn [negb] in HA.
    apply Forall2_split in HA. destruct HA as (n1 & y & n2 & -> & H1 & HY & H2). apply Forall_app in A. destruct A as [A1 A2].
    destruct D as (_ & _ & DA). apply Forall_app in DA. destruct DA as [_ DA]. inversion DA as [|? ? [_ PV] _]; subst. cbn [snd] in PV.
    assert (E : y = XElem (Ns (Some pre)) name [] (text_kids v)).
    { destruct HY as [->|HY]; unfold attr_elem in *; cbn [fst snd] in *; rewrite (plain_content e v PV) in *; [reflexivity|].
      cbn [norm_new] in HY. rewrite unknown in HY. cbn [bind] in HY. destruct (is_leaf (text_kids v)); apply ok_inj in HY; symmetry; exact HY. }
    exists y. split; [|subst y; split; [cbn [content]; apply text_kids_content|destruct v; reflexivity]].
    exists (filter skip_attr (a1 ++ (Some pre, name, v) :: a2)), (kids' ++ n1 ++ y :: n2). split; [exact HN|]. split; [exact S1|]. split; [exact S2|].
    rewrite filter_app, (kids_none _ _ HK K). cbn [app]. apply filter_mid.
    + exact (attrs_none _ _ H1 (Forall_filter _ _ _ A1)).
    + exact (attrs_none _ _ H2 (Forall_filter _ _ _ A2)).
    + subst y. cbn [tagb]. rewrite !beq_refl. reflexivity.
  - destruct (norm_desc e _ _ d0 D P) as (kids' & new & HN & HK & HA). destruct (desc_shape _ _ _ _ _ D P HK HA) as [S1 S2].
    apply Forall2_split in HK. destruct HK as (n1 & y & n2 & -> & H1 & HY & H2). apply Forall_app in K. destruct K as [K1 K2].
    rewrite (norm_simple e pre name a v unknown T0) in HY. apply ok_inj in HY.
    exists y. split; [|subst y; split; [cbn [content]; apply text_kids_content|destruct v; reflexivity]].
    exists (filter skip_attr attrs), ((n1 ++ y :: n2) ++ new). split; [exact HN|]. split; [exact S1|]. split; [exact S2|].
    rewrite filter_app, (attrs_none _ _ HA (Forall_filter _ _ _ A)), app_nil_r. apply filter_mid.
    + exact (kids_none _ _ H1 K1).
    + exact (kids_none _ _ H2 K2).
    + subst y. cbn [tagb]. rewrite !beq_refl. reflexivity.
Qed.
Lemma lists_has d v : lists pre name v d -> prefixed d -> exists y, desc_has d [y] /\ list_text y = Some v.
Proof.
  intros [d0 attrs k1 a n m b c more k2 D TA TB TC A K] P.
  destruct (norm_desc e _ _ d0 D P) as (kids' & new & HN & HK & HA). destruct (desc_shape _ _ _ _ _ D P HK HA) as [S1 S2].
  apply Forall2_split in HK. destruct HK as (n1 & y & n2 & -> & H1 & HY & H2). apply Forall_app in K. destruct K as [K1 K2].
  exists y. split; [|exact (norm_list _ _ _ _ _ _ _ _ _ _ _ TA TB TC HY)].
  exists (filter skip_attr attrs), ((n1 ++ y :: n2) ++ new). split; [exact HN|]. split; [exact S1|]. split; [exact S2|].
  rewrite filter_app, (attrs_none _ _ HA (Forall_filter _ _ _ A)), app_nil_r. apply filter_mid.
  - exact (kids_none _ _ H1 K1).
  - exact (kids_none _ _ H2 K2).
  - rewrite (same_tagb _ _ _ _ (norm_tag _ _ _ HY)). cbn [tagb]. rewrite !beq_refl. reflexivity.
Qed.
End Property.

(** ** Packets *)

Lemma prefixed_kids n m a k : prefixed (XElem n m a k) -> Forall prefixed k.
Proof. intros H. inversion H; subst. assumption. Qed.

Definition becomes (e : env) (d : xml) (K : list xml) : Prop :=
  exists a, norm e d = Ok (XElem rdf_ns (bs "Description") a K) /\ Forall safe K /\ Forall (fun x => is_elem x = true) K.
Definition described (d : xml) : Prop := exists attrs kids, is_description attrs kids d.
Lemma described_becomes e d : described d -> prefixed d -> exists K, becomes e d K.
Proof.
  intros (attrs & kids & D) P. destruct (norm_desc e attrs kids d D P) as (kids' & new & HN & HK & HA).
  destruct (desc_shape e _ _ _ _ _ D P HK HA) as [S1 S2]. exists (kids' ++ new), (filter skip_attr attrs). repeat split; assumption.
Qed.
Lemma descs_become e ds : Forall described ds -> Forall prefixed ds -> exists Ks, Forall2 (becomes e) ds Ks.
Proof.
  induction ds as [|d ds IH]; intros D P; [exists []; constructor|]. inversion D as [|? ? Dx Dt]; subst. inversion P as [|? ? Px Pt]; subst.
  destruct (IH Dt Pt) as [Ks H]. destruct (described_becomes e d Dx Px) as [K HK]. exists (K :: Ks). constructor; assumption.
Qed.
Lemma each_descs e ds Ks : Forall2 (becomes e) ds Ks -> exists ds', each (norm e) ds = Ok ds' /\
  Forall2 (fun y K => exists a, y = XElem rdf_ns (bs "Description") a K) ds' Ks.
Proof.
  induction 1 as [|d K ds Ks (a & H & _) _ IH]; [exists []; split; [reflexivity|constructor]|]. destruct IH as (ds' & E & F).
  cbn [each]. rewrite H. cbn [bind]. rewrite E. eexists. split; [reflexivity|]. constructor; [eauto|exact F].
Qed.
Lemma merge_descs ds' Ks : Forall2 (fun y K => exists a, y = XElem rdf_ns (bs "Description") a K) ds' Ks ->
  Forall (Forall (fun x => is_elem x = true)) Ks -> merge ds' = Ok (concat Ks, []).
Proof.
  induction 1 as [|y K ds' Ks (a & ->) _ IH]; intros F; [reflexivity|]. inversion F as [|? ? FK Ft]; subst. cbn [merge is_tag rdf_ns].
  rewrite !beq_refl. cbn [andb bind]. rewrite (IH Ft). cbn [bind]. rewrite (filter_all _ _ FK). reflexivity.
Qed.
Lemma find_there pre name l x r : Forall safe (l ++ x :: r) -> Forall (fun x => ~ elem_named pre name x) l -> tagb pre name x = true ->
  find_child pre name (l ++ x :: r) = Ok (Some (l, x, r)).
Proof.
  intros S N T. induction l as [|y l IH]; cbn [app] in *; inversion S as [|? ? Sx St]; subst; cbn [find_child]; rewrite (is_tag_ok _ _ _ Sx); cbn [bind].
  - rewrite T. reflexivity.
  - inversion N as [|? ? Ny Nt]; subst. destruct (tagb pre name y) eqn:E; [destruct (Ny (proj1 (tagb_named _ _ _) E))|].
    rewrite (IH St Nt). reflexivity.
Qed.
Lemma packet_becomes e p ds : has_descriptions ds p -> Forall described ds -> exists q Ks,
  create e (Some p) = Ok (Some q) /\ description q = Ok (Some (concat Ks)) /\ Forall2 (becomes e) ds Ks /\ Forall safe (concat Ks).
Proof.
  intros (P & NE & n & attrs & l & r & -> & L) D. pose proof (prefixed_kids _ _ _ _ P) as PK.
  pose proof (prefixed_all _ PK) as SK. apply Forall_app in PK. destruct PK as [_ PK]. apply Forall_inv in PK.
  pose proof (prefixed_kids _ _ _ _ PK) as PD. destruct (descs_become e ds D PD) as [Ks HKs]. destruct (each_descs e ds Ks HKs) as (ds' & E & F).
  assert (SC : Forall (Forall safe) Ks /\ Forall (Forall (fun x => is_elem x = true)) Ks).
  { clear - HKs. induction HKs as [|d K ds Ks (a & _ & H1 & H2) _ [I1 I2]]; split; constructor; assumption. }
  destruct SC as [SC EC].
  assert (NR : norm e (XElem (Ns (Some (bs "rdf"))) (bs "RDF") [] ds) = Ok (XElem rdf_ns (bs "RDF") [] ds')).
  { destruct ds as [|d ds]; [destruct (NE eq_refl)|]. assert (IE : is_elem d = true).
    { inversion D as [|? ? (a & k & -> & _) _]; subst. reflexivity. }
    rewrite norm_unfold by (apply is_leaf_elem, IE). rewrite E. cbn [bind]. cbn [existsb]. rewrite IE. cbn [orb new_elems is_resource parse_type filter map each bind].
    unfold norm_elem. cbn [is_resource parse_type filter]. rewrite app_nil_r. reflexivity. }
  destruct ds as [|d ds]; [destruct (NE eq_refl)|]. inversion HKs as [|? K ? Ks0 HK HKs0]; subst Ks. subst.
  inversion F as [|y ? ds0 ? (a & ->) F0]; subst ds'. subst.
  inversion EC as [|? ? EK EC0]; subst.
  assert (SR : safe (XElem rdf_ns (bs "RDF") [] ds)) by exact Logic.I.
  eexists. exists (K :: Ks0). split; [|split; [|split; [exact HKs|]]].
  - unfold create. rewrite beq_refl. unfold normalize. rewrite (find_there _ _ _ _ _ SK L) by reflexivity. cbn [bind]. rewrite NR. cbn [bind].
    cbn [find_child is_tag rdf_ns]. rewrite !beq_refl. cbn [andb bind]. rewrite (merge_descs _ _ F0 EC0). cbn [bind]. reflexivity.
  - unfold description. cbn [kids_of]. rewrite find_there; [|apply Forall_app; apply Forall_app in SK; destruct SK as [SL SK]; split; [exact SL|]; inversion SK; subst; constructor; [exact Logic.I|assumption]|exact L|reflexivity].
    cbn [bind kids_of app find_child is_tag rdf_ns]. rewrite !beq_refl. cbn [andb bind kids_of concat]. reflexivity.
  - apply Forall_concat. exact SC.
Qed.
Lemma filter_concat {A} (f : A -> bool) l : filter f (concat l) = concat (map (filter f) l).
Proof. induction l as [|x l IH]; [reflexivity|]. cbn [concat map]. rewrite filter_app, IH. reflexivity. Qed.
Lemma becomes_has e pre name d K ys : becomes e d K -> desc_has e pre name d ys -> filter (tagb pre name) K = ys.
Proof. intros (a & H & _) (a' & K' & H' & _ & _ & F). rewrite H in H'. apply ok_inj in H'. injection H' as _ <-. exact F. Qed.
Lemma silent_described pre name d : silent pre name d -> described d.
Proof. intros (a & k & D & _). exists a, k. exact D. Qed.
Lemma says_described pre name v d : says pre name v d -> described d.
Proof. intros [d0 a1 a2 kids D _ _|d0 attrs k1 a k2 D _ _ _]; eexists; eexists; exact D. Qed.
Lemma lists_described pre name v d : lists pre name v d -> described d.
Proof. intros [d0 attrs k1 a n m b c more k2 D _ _ _ _ _]. eexists; eexists; exact D. Qed.
Lemma has_prefixed ds p : has_descriptions ds p -> Forall prefixed ds.
Proof.
  intros (P & _ & n & attrs & l & r & -> & _). apply prefixed_kids in P. apply Forall_app in P. destruct P as [_ P].
  apply Forall_inv, prefixed_kids in P. exact P.
Qed.
Section Reading.
Variables (e : env) (pre name : list Z).
Hypothesis not_rdf : beq pre (bs "rdf") = false.
Lemma silent_all ds Ks : Forall2 (becomes e) ds Ks -> Forall (silent pre name) ds -> Forall prefixed ds -> concat (map (filter (tagb pre name)) Ks) = [].
Proof.
  induction 1 as [|d K ds Ks HK _ IH]; intros S P; [reflexivity|]. inversion S as [|? ? Sx St]; subst. inversion P as [|? ? Px Pt]; subst.
  cbn [map concat]. rewrite (becomes_has _ _ _ _ _ _ HK (silent_has e pre name not_rdf d Sx Px)). exact (IH St Pt).
Qed.
Lemma packet_property p (P Q : xml -> Prop) :
  (forall d, P d -> described d) -> (forall d, P d -> prefixed d -> exists y, desc_has e pre name d [y] /\ Q y) ->
  (exists ds, has_descriptions ds p /\ one_of P (silent pre name) ds) ->
  exists q K y, create e (Some p) = Ok (Some q) /\ description q = Ok (Some K) /\ Forall safe K /\ filter (tagb pre name) K = [y] /\ Q y.
Proof.
  intros PD PH (ds & H & d1 & d & d2 & -> & Hd & HS). pose proof (has_prefixed _ _ H) as HP.
  apply Forall_app in HS. destruct HS as [S1 S2].
  destruct (packet_becomes e p _ H) as (q & Ks & C & D & B & S).
  { apply Forall_app. split; [eapply Forall_impl; [|exact S1]; apply silent_described|]. constructor; [apply PD, Hd|].
    eapply Forall_impl; [|exact S2]; apply silent_described. }
  apply Forall2_split in B. destruct B as (K1 & K & K2 & -> & B1 & BK & B2). apply Forall_app in HP. destruct HP as [P1 HP].
  inversion HP as [|? ? Pd P2]; subst. destruct (PH d Hd Pd) as (y & HY & HQ). exists q, (concat (K1 ++ K :: K2)), y.
  repeat split; try assumption. rewrite filter_concat, map_app, concat_app. cbn [map concat].
  rewrite (silent_all _ _ B1 S1 P1), (silent_all _ _ B2 S2 P2), (becomes_has _ _ _ _ _ _ BK HY). reflexivity.
Qed.
Lemma packet_nothing p : packet_silent pre name p ->
  exists q K, create e (Some p) = Ok (Some q) /\ description q = Ok (Some K) /\ Forall safe K /\ filter (tagb pre name) K = [].
Proof.
  intros (ds & H & S). destruct (packet_becomes e p _ H) as (q & Ks & C & D & B & SK).
  { eapply Forall_impl; [|exact S]. apply silent_described. }
  exists q, (concat Ks). repeat split; try assumption. rewrite filter_concat. exact (silent_all _ _ B S (has_prefixed _ _ H)).
Qed.
End Reading.
