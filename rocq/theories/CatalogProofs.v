(** The settings of the catalog and the developer extensions *)
From Coq Require Import String Lia.
From Verif Require Import Base TokModel OwnModel PageModel UtilModel ChainProofs CatalogModel CatalogSpec.
From Verif Require DictProofs ListModel ListProofs MetaProofs.
Local Open Scope Z_scope.

Definition dict0 : Type := list (list Z * obj).
Lemma ord_nodup (d : dict0) : ordered d -> NoDup (map fst d).
Proof. apply DictProofs.sorted_nodup. Qed.
Lemma get_iff k (v : obj) d : ordered d -> dict_get k d = Some v <-> In (k, v) d.
Proof. intros O. apply MetaProofs.get_in, ord_nodup, O. Qed.
Lemma stands_iff look (d : dict0) k o : ordered d -> stands look d k o <-> dict_find look k d = Some o.
Proof.
  intros O. unfold stands, dict_find, get_key. split.
  - intros [(I0 & D)|(n & g & I0 & L)]; apply (get_iff _ _ _ O) in I0; rewrite I0; [|exact L]. destruct o; try reflexivity. destruct (D n g eq_refl).
  - destruct (dict_get k d) as [v|] eqn:E; [|discriminate]. apply (get_iff _ _ _ O) in E.
    destruct v as [|b|z|m q|s|h s|n g|l|dd]; intros H; try (injection H as <-; left; split; [exact E|intros ? ? X; discriminate X]).
    right. exists n, g. split; [exact E|exact H].
Qed.
Lemma add_ord k v (d : dict0) : ordered d -> ordered (add_key k v d).
Proof. apply DictProofs.dict_add_sorted. Qed.
Lemma add_get k v q (d : dict0) : ordered d -> dict_get q (add_key k v d) = if beq q k then Some v else dict_get q d.
Proof. apply (DictProofs.dict_get_add k v q d). Qed.
Lemma remove_ord k (d : dict0) : ordered d -> ordered (snd (remove_key k d)).
Proof. intros O. unfold remove_key. destruct (has_key k d); [apply (MetaProofs.erase_sorted k d O)|exact O]. Qed.
Lemma remove_get k q (d : dict0) : ordered d -> dict_get q (snd (remove_key k d)) = if beq q k then None else dict_get q d.
Proof.
  intros O. unfold remove_key, has_key. destruct (dict_get k d) eqn:G; cbn [snd]; [apply MetaProofs.erase_get, ord_nodup, O|].
  destruct (beq q k) eqn:Q; [|reflexivity]. apply beq_eq in Q. subst q. exact G.
Qed.
Lemma add_find look k v q (d : dict0) : ordered d -> direct v -> dict_find look q (add_key k v d) = if beq q k then Some v else dict_find look q d.
Proof.
  intros O D. unfold dict_find, get_key. rewrite (add_get k v q d O). destruct (beq q k); [|reflexivity]. destruct v; try reflexivity. destruct (D n g eq_refl).
Qed.
Lemma remove_find look k q (d : dict0) : ordered d -> dict_find look q (snd (remove_key k d)) = if beq q k then None else dict_find look q d.
Proof. intros O. unfold dict_find, get_key. rewrite (remove_get k q d O). destruct (beq q k); reflexivity. Qed.
Lemma set_same r o h : set r o h r = o.
Proof. unfold set. rewrite ListProofs.ref_eqb_refl. reflexivity. Qed.
Lemma set_other r o h q : q <> r -> set r o h q = h q.
Proof. intros N. unfold set. apply ListProofs.ref_eqb_false in N. rewrite N. reflexivity. Qed.
Lemma beq_neq (a b : list Z) : a <> b -> beq a b = false.
Proof. intros N. destruct (beq a b) eqn:E; [|reflexivity]. apply beq_eq in E. contradiction. Qed.
Lemma ord_nil : ordered [].
Proof. constructor. Qed.

(** ** Settings *)

Section Settings.
Definition VP : list Z := bs "ViewerPreferences".
Definition vp (x : cat) : dict0 := match dict_find (others x) VP (root x) with Some (ODict d) => d | _ => [] end.
Definition fit (x : cat) : Prop :=
  ordered (root x) /\ match dict_find (others x) VP (root x) with None => True | Some (ODict d) => ordered d | Some _ => False end /\
  forall k n g, dict_get VP (root x) = Some (ORef n g) -> dict_get k (root x) = Some (ORef n g) -> k = VP.
Definition holds (x : cat) (a : settings) : Prop :=
  (forall k, k <> VP -> entries a k = dict_find (others x) k (root x)) /\ forall k, prefs a k = dict_get k (vp x).
Lemma fits_fit x : fits x <-> fit x.
Proof.
  unfold fits, fit. fold VP. split; intros (O & D & A); split; try exact O; split.
  - destruct (dict_find (others x) VP (root x)) as [o|] eqn:E; [|exact Logic.I]. apply stands_iff in E; [|exact O].
    destruct (D o E) as (d & -> & Od). exact Od.
  - intros k n g H1 H2. apply (get_iff _ _ _ O) in H1. apply (get_iff _ _ _ O) in H2. exact (A k n g H1 H2).
  - intros o S. apply stands_iff in S; [|exact O]. rewrite S in D. destruct o; try contradiction. eexists. split; [reflexivity|exact D].
  - intros k n g H1 H2. apply (get_iff _ _ _ O) in H1. apply (get_iff _ _ _ O) in H2. exact (A k n g H1 H2).
Qed.
Lemma vp_ord x : fit x -> ordered (vp x).
Proof. intros (_ & D & _). unfold vp. destruct (dict_find (others x) VP (root x)) as [[]|]; try exact ord_nil. exact D. Qed.
Lemma opt_eq {A} (a b : option A) : (forall o, a = Some o <-> b = Some o) -> a = b.
Proof. intros H. destruct a as [x|]; [symmetry; apply H; reflexivity|]. destruct b as [y|]; [apply H; reflexivity|reflexivity]. Qed.
Lemma has_holds x a : fit x -> has x a <-> holds x a.
Proof.
  intros F. pose proof F as (O & D & _). unfold has, holds. fold VP.
  assert (P : forall k o, (exists d, stands (others x) (root x) VP (ODict d) /\ In (k, o) d) <-> dict_get k (vp x) = Some o).
  { intros k o. rewrite (get_iff _ _ _ (vp_ord x F)). unfold vp. split.
    - intros (d & S & I0). apply stands_iff in S; [|exact O]. rewrite S. exact I0.
    - destruct (dict_find (others x) VP (root x)) as [[]|] eqn:E; try contradiction; try (intros []). intros I0. exists d.
      split; [apply stands_iff; assumption|exact I0]. }
  split; intros (E & G); split.
  - intros k N. apply opt_eq. intros o. rewrite (E k o N). apply stands_iff, O.
  - intros k. apply opt_eq. intros o. rewrite (G k o). apply P.
  - intros k o N. rewrite (E k N). symmetry. apply stands_iff, O.
  - intros k o. rewrite (G k), P. reflexivity.
Qed.
(** An entry of the catalog is changed *)
Lemma entry_fit k v x a : k <> VP -> direct v -> fit x -> holds x a ->
  let x' := with_root x (add_key k v (root x)) in fit x' /\ holds x' (entry k (Some v) a).
Proof.
  intros N Dv F (HE & HP). pose proof F as (O & D & A). pose proof (beq_neq _ _ (not_eq_sym N)) as B.
  cbv zeta. unfold with_root. split.
  - unfold fit. cbn [root others]. split; [apply add_ord, O|]. rewrite (add_find (others x) k v VP _ O Dv), B. split; [exact D|].
    intros q n g. rewrite !(add_get _ _ _ _ O), B. intros H1. destruct (beq q k) eqn:Q; [|apply A, H1]. intros H2. injection H2 as ->. destruct (Dv n g eq_refl).
  - unfold holds. cbn [root others entry entries prefs]. split.
    + intros q Nq. rewrite (add_find (others x) k v q _ O Dv). unfold now. destruct (beq q k); [reflexivity|apply HE, Nq].
    + intros q. rewrite HP. unfold vp. cbn [root others]. rewrite (add_find (others x) k v VP _ O Dv), B. reflexivity.
Qed.
Lemma remove_fit k x a : k <> VP -> fit x -> holds x a ->
  let x' := with_root x (snd (remove_key k (root x))) in fit x' /\ holds x' (entry k None a).
Proof.
  intros N F (HE & HP). pose proof F as (O & D & A). pose proof (beq_neq _ _ (not_eq_sym N)) as B.
  cbv zeta. unfold with_root. split.
  - unfold fit. cbn [root others]. split; [apply remove_ord, O|]. rewrite (remove_find (others x) k VP _ O), B. split; [exact D|].
    intros q n g. rewrite !(remove_get _ _ _ O), B. intros H1. destruct (beq q k) eqn:Q; [discriminate|apply A, H1].
  - unfold holds. cbn [root others entry entries prefs]. split.
    + intros q Nq. rewrite (remove_find (others x) k q _ O). unfold now. destruct (beq q k); [reflexivity|apply HE, Nq].
    + intros q. rewrite HP. unfold vp. cbn [root others]. rewrite (remove_find (others x) k VP _ O), B. reflexivity.
Qed.
(** Only the object of the viewer preferences may be changed *)
Definition same_others (x x' : cat) : Prop := forall r, (forall n g, r = (n, g) -> dict_get VP (root x) <> Some (ORef n g)) -> others x' r = others x r.
Definition same_vp (x x' : cat) : Prop := dict_get VP (root x') = dict_get VP (root x) \/ forall n g, dict_get VP (root x') <> Some (ORef n g).
(** A viewer preference is set *)
Lemma new_fit w v x a d : fit x -> holds x a -> d = vp x ->
  let x' := with_root x (add_key VP (ODict (add_key w v d)) (root x)) in fit x' /\ holds x' (viewer w (Some v) a).
Proof.
  intros F (HE & HP) ->. pose proof F as (O & D & A). pose proof (vp_ord x F) as Ov.
  assert (Dv : direct (ODict (add_key w v (vp x)))) by (intros ? ? X; discriminate X).
  cbv zeta. unfold with_root. split.
  - unfold fit. cbn [root others]. split; [apply add_ord, O|]. rewrite (add_find (others x) VP _ VP _ O Dv), beq_refl. split; [apply add_ord, Ov|].
    intros q n g. rewrite !(add_get _ _ _ _ O), beq_refl. discriminate.
  - unfold holds. cbn [root others viewer entries prefs]. split.
    + intros q Nq. rewrite (add_find (others x) VP _ q _ O Dv), (beq_neq _ _ Nq). apply HE, Nq.
    + intros q. unfold vp at 1. cbn [root others]. rewrite (add_find (others x) VP _ VP _ O Dv), beq_refl. rewrite (add_get _ _ _ _ Ov). unfold now.
      destruct (beq q w); [reflexivity|apply HP].
Qed.
Lemma pref_fit w v x a : fit x -> holds x a -> exists x', set_pref w v x = Ok x' /\ fit x' /\ holds x' (viewer w (Some v) a) /\ same_others x x' /\ same_vp x x'.
Proof.
  intros F H. pose proof F as (O & D & A). unfold set_pref, sub_dict. fold VP.
  assert (K : forall d, d = vp x -> let x' := with_root x (add_key VP (ODict (add_key w v d)) (root x)) in
    fit x' /\ holds x' (viewer w (Some v) a) /\ same_others x x' /\ same_vp x x').
  { intros d E x'. destruct (new_fit w v x a d F H E) as (F' & H'). split; [exact F'|]. split; [exact H'|]. split; [intros r _; reflexivity|].
    right. intros n g. unfold x'. cbn [with_root root]. rewrite (add_get _ _ _ _ O), beq_refl. discriminate. }
  destruct (dict_find (others x) VP (root x)) as [o|] eqn:E.
  - destruct o as [|b|z|m q|s|h s|n g|l|d]; try contradiction. cbn [bind]. unfold put_sub. fold VP.
    assert (Ed : d = vp x) by (unfold vp; rewrite E; reflexivity).
    destruct (get_key VP (root x)) as [o|] eqn:G; [|unfold dict_find in E; rewrite G in E; discriminate E].
    destruct o as [|b|z|m q|s|h s|n g|l|dd]; try (eexists; split; [reflexivity|]; exact (K d Ed)).
    unfold get_key in G. pose proof E as L. unfold dict_find, get_key in L. rewrite G in L.
    eexists. split; [reflexivity|].
    assert (X : forall q, q <> VP -> dict_find (set (n, g) (Some (ODict (add_key w v d))) (others x)) q (root x) = dict_find (others x) q (root x)).
    { intros q Nq. unfold dict_find, get_key. destruct (dict_get q (root x)) as [[]|] eqn:Gq; try reflexivity.
      apply set_other. intros Eq. injection Eq as -> ->. apply Nq. exact (A q n g G Gq). }
    assert (X' : dict_find (set (n, g) (Some (ODict (add_key w v d))) (others x)) VP (root x) = Some (ODict (add_key w v d))).
    { unfold dict_find, get_key. rewrite G. apply set_same. }
    split; [|split].
    + unfold fit. cbn [root others]. split; [exact O|]. rewrite X'. split; [apply add_ord; rewrite Ed; apply vp_ord, F|exact A].
    + destruct H as (HE & HP). unfold holds. cbn [root others viewer entries prefs]. split.
      * intros q Nq. rewrite (X q Nq). apply HE, Nq.
      * intros q. unfold vp. cbn [root others]. rewrite X'. rewrite (add_get _ _ _ _ D). unfold now.
        destruct (beq q w); [reflexivity|rewrite HP, Ed; reflexivity].
    + split; [|left; reflexivity]. intros r Nr. cbn [others]. apply set_other. intros ->. exact (Nr n g eq_refl G).
  - cbn [bind]. eexists. split; [reflexivity|]. apply (K []). unfold vp. rewrite E. reflexivity.
Qed.
Lemma mode_ok x a : fit x -> holds x a -> call_ok GetMode a -> exists m, get_mode x = Ok m /\ answers GetMode a (Some m) /\ m <> DontCare.
Proof.
  intros F (HE & _) H. cbn [call_ok answers] in *. assert (N : bs "PageMode" <> VP) by discriminate. rewrite (HE _ N) in *. unfold get_mode.
  destruct H as [->|(m & n & I0 & E)].
  - exists UseNone. split; [reflexivity|]. split; [|discriminate]. exists UseNone. split; [reflexivity|]. left. split; reflexivity.
  - rewrite E. unfold mode_names in I0. repeat (destruct I0 as [I0|I0];
      [injection I0 as <- <-; eexists; split; [reflexivity|]; split; [|discriminate]; eexists; split; [reflexivity|]; right; eexists; split; [|reflexivity]; cbn; tauto|]). destruct I0.
Qed.
Lemma settle (x x' x'' : cat) : same_others x x' -> same_vp x x' -> same_others x' x'' -> same_vp x' x'' -> same_others x x'' /\ same_vp x x''.
Proof.
  intros A B C D. split.
  - intros r N. rewrite C; [apply A, N|]. intros n g E. destruct B as [B|B]; [rewrite B; apply N, E|apply B].
  - destruct D as [D|D]; [|right; exact D]. unfold same_vp. rewrite D. exact B.
Qed.
Lemma entry_same k v x : fit x -> k <> VP -> direct v -> same_others x (with_root x (add_key k v (root x))) /\ same_vp x (with_root x (add_key k v (root x))).
Proof. intros (O & _) N D. split; [intros r _; reflexivity|]. left. cbn [with_root root]. rewrite (add_get _ _ _ _ O), (beq_neq VP k) by (apply not_eq_sym, N). reflexivity. Qed.
Ltac own := first [discriminate | intros ? ? X; discriminate X].
Lemma step_fit c x a : fit x -> holds x a -> call_ok c a -> exists x' r, step c x = Ok (x', r) /\ answers c a r /\ fit x' /\ holds x' (meant c a) /\ same_others x x' /\ same_vp x x'.
Proof.
  intros F H K.
  assert (Same : same_others x x /\ same_vp x x) by (split; [intros r _; reflexivity|left; reflexivity]).
  assert (E : forall k v, k <> VP -> direct v -> let x' := with_root x (add_key k v (root x)) in
    fit x' /\ holds x' (entry k (Some v) a) /\ same_others x x' /\ same_vp x x').
  { intros k v N D. destruct (entry_fit k v x a N D F H). destruct (entry_same k v x F N D). cbv zeta. tauto. }
  assert (P : forall w v, exists x' r, (do x <- set_pref w v x; Ok (x, @None mode)) = Ok (x', r) /\ r = None /\ fit x' /\ holds x' (viewer w (Some v) a) /\
    same_others x x' /\ same_vp x x').
  { intros w v. destruct (pref_fit w v x a F H) as (x' & S & R). rewrite S. cbn [bind]. exists x', None. split; [reflexivity|]. split; [reflexivity|]. exact R. }
  destruct c as [m|l|p| |s|s|]; cbn [step].
  - exists (set_mode m x), None. split; [reflexivity|]. split; [reflexivity|]. destruct m; cbn [set_mode meant]; [split; [exact F|]; split; [exact H|exact Same]|..]; apply E; own.
  - exists (set_layout l x), None. split; [reflexivity|]. split; [reflexivity|].
    destruct l; cbn [set_layout meant]; [split; [exact F|]; split; [exact H|exact Same]| |..]; try (apply E; own).
    assert (N : bs "PageLayout" <> VP) by discriminate. destruct (remove_fit _ x a N F H) as (F' & H'). split; [exact F'|]. split; [exact H'|].
    split; [intros r _; reflexivity|]. left. cbn [with_root root]. destruct F as (O & _). rewrite (remove_get _ _ _ O), (beq_neq VP) by discriminate. reflexivity.
  - destruct p; cbn [set_viewer meant]; apply P.
  - pose proof K as K0. cbn [call_ok] in K. destruct K as (m & n & I0 & Em). destruct (mode_ok x a F H) as (m' & G & _ & Nm); [right; exists m, n; split; assumption|].
    unfold set_full. rewrite G. cbn [bind]. pose proof (proj1 H (bs "PageMode") ltac:(discriminate)) as HE. rewrite <- HE, Em.
    destruct (pref_fit (bs "NonFullScreenPageMode") (OName n) x a F H) as (x1 & S & F1 & H1 & S1 & V1).
    assert (Y : match m' with DontCare => Ok x | _ => set_pref (bs "NonFullScreenPageMode") (OName n) x end = Ok x1) by (destruct m'; [destruct (Nm eq_refl)|..]; exact S).
    rewrite Y. cbn [bind set_mode]. eexists. exists None. split; [reflexivity|]. split; [reflexivity|].
    unfold set_name. destruct (entry_fit (bs "PageMode") (OName (bs "FullScreen")) x1 _ ltac:(own) ltac:(own) F1 H1) as (F2 & H2).
    destruct (entry_same (bs "PageMode") (OName (bs "FullScreen")) x1 F1 ltac:(own) ltac:(own)) as (S2 & V2).
    split; [exact F2|]. split; [cbn [meant]; rewrite Em; exact H2|]. exact (settle _ _ _ S1 V1 S2 V2).
  - exists (set_base s x), None. split; [reflexivity|]. split; [reflexivity|]. cbn [meant]. apply (E (bs "URI") (ODict [(bs "Base", OStr false s)])); own.
  - exists (set_lang s x), None. split; [reflexivity|]. split; [reflexivity|]. cbn [meant]. apply E; own.
  - destruct (mode_ok x a F H K) as (m & G & An & _). rewrite G. cbn [bind]. exists x, (Some m). split; [reflexivity|]. split; [exact An|].
    split; [exact F|]. split; [exact H|exact Same].
Qed.
Lemma play_fit l : forall x a, fit x -> holds x a -> calls_ok l a -> exists x' r, play l x = Ok (x', r) /\ answered l a r /\ fit x' /\ holds x' (after l a) /\ same_others x x' /\ same_vp x x'.
Proof.
  induction l as [|c t IH]; intros x a F H K; cbn [play].
  - exists x, []. split; [reflexivity|]. split; [exact Logic.I|]. split; [exact F|]. split; [exact H|]. split; [intros r _; reflexivity|left; reflexivity].
  - destruct K as (K & Ks). destruct (step_fit c x a F H K) as (x1 & r & S & An & F1 & H1 & S1 & V1). rewrite S. cbn [bind].
    destruct (IH x1 _ F1 H1 Ks) as (x2 & rs & P & Ans & F2 & H2 & S2 & V2). rewrite P. cbn [bind]. exists x2, (r :: rs).
    split; [reflexivity|]. split; [split; assumption|]. split; [exact F2|]. split; [exact H2|]. exact (settle _ _ _ S1 V1 S2 V2).
Qed.
End Settings.

(** ** Extensions *)

Section Extensions.
Definition EX : list Z := bs "Extensions".
Definition exts (x : cat) : dict0 := match dict_find (others x) EX (root x) with Some (ODict e) => e | _ => [] end.
Definition dicts (e : dict0) : Prop := forall ns v, In (ns, v) e -> exists d, v = ODict d /\ ordered d.
Definition prop (x : cat) : Prop :=
  ordered (root x) /\ match dict_find (others x) EX (root x) with None => True | Some (ODict e) => ordered e /\ dicts e | Some _ => False end.
Lemma proper_prop x : proper x <-> prop x.
Proof.
  unfold proper, prop, dicts. fold EX. split; intros (O & D); split; try exact O.
  - destruct (dict_find (others x) EX (root x)) as [o|] eqn:E; [|exact Logic.I]. apply stands_iff in E; [|exact O]. destruct (D o E) as (e & -> & R). exact R.
  - intros o S. apply stands_iff in S; [|exact O]. rewrite S in D. destruct o; try contradiction. eexists. split; [reflexivity|exact D].
Qed.
Lemma exts_ok x : prop x -> ordered (exts x) /\ dicts (exts x).
Proof.
  intros (_ & D). unfold exts. destruct (dict_find (others x) EX (root x)) as [[]|]; try contradiction; try exact D. split; [exact ord_nil|intros ? ? []].
Qed.
Lemma stands_exts x ns d : prop x -> (exists e, stands (others x) (root x) EX (ODict e) /\ In (ns, ODict d) e) <-> In (ns, ODict d) (exts x).
Proof.
  intros (O & D). unfold exts. split.
  - intros (e & S & I0). apply stands_iff in S; [|exact O]. rewrite S. exact I0.
  - destruct (dict_find (others x) EX (root x)) as [[]|] eqn:E; try contradiction; try (intros []; fail). intros I0. eexists. split; [apply stands_iff; [exact O|exact E]|exact I0].
Qed.
Lemma level_exts x ns l : prop x -> level_of x ns l <-> exists d, In (ns, ODict d) (exts x) /\ stands (others x) d (bs "ExtensionLevel") (ONum l).
Proof.
  intros P. unfold level_of. fold EX. split.
  - intros (e & d & S & I0 & L). exists d. split; [apply (stands_exts x ns d P); exists e; split; assumption|exact L].
  - intros (d & I0 & L). apply (stands_exts x ns d P) in I0. destruct I0 as (e & S & I0). exists e, d. repeat split; assumption.
Qed.
Definition table : list (list Z * version) :=
  [(bs "1.0", V10); (bs "1.1", V11); (bs "1.2", V12); (bs "1.3", V13); (bs "1.4", V14); (bs "1.5", V15); (bs "1.6", V16); (bs "1.7", V17); (bs "2.0", V20)].
Lemma declares_exts x ns v l : prop x -> declares x ns v l <-> exists d n, In (ns, ODict d) (exts x) /\ stands (others x) d (bs "ExtensionLevel") (ONum l) /\
  stands (others x) d (bs "BaseVersion") (OName n) /\ In (n, v) table.
Proof.
  intros P. unfold declares. fold EX. fold table. split.
  - intros (e & d & n & S & I0 & L). exists d, n. split; [apply (stands_exts x ns d P); exists e; split; assumption|exact L].
  - intros (d & n & I0 & L). apply (stands_exts x ns d P) in I0. destruct I0 as (e & S & I0). exists e, d, n. split; [exact S|]. split; [exact I0|exact L].
Qed.
Lemma sub_exts x : prop x -> sub_dict EX x = Ok None /\ exts x = [] \/ sub_dict EX x = Ok (Some (exts x)).
Proof.
  intros (_ & D). unfold sub_dict, exts. destruct (dict_find (others x) EX (root x)) as [[]|]; try contradiction; [right; reflexivity|left; split; reflexivity].
Qed.
Lemma find_exts x ns : prop x -> match dict_find (others x) ns (exts x) with None => forall v, ~ In (ns, v) (exts x) | Some (ODict d) => In (ns, ODict d) (exts x) /\ ordered d | _ => False end.
Proof.
  intros P. destruct (exts_ok x P) as (O & D). unfold dict_find, get_key. destruct (dict_get ns (exts x)) as [v|] eqn:E.
  - apply (get_iff _ _ _ O) in E. destruct (D _ _ E) as (d & -> & Od). split; assumption.
  - intros v I0. apply (get_iff _ _ _ O) in I0. rewrite I0 in E. discriminate E.
Qed.
Lemma in_once x ns a b : prop x -> In (ns, a) (exts x) -> In (ns, b) (exts x) -> a = b.
Proof. intros P A B. destruct (exts_ok x P) as (O & _). apply (get_iff _ _ _ O) in A. apply (get_iff _ _ _ O) in B. congruence. Qed.
Lemma has_iff ns l x : prop x -> exists b, has_ext ns l x = Ok b /\ (b = true <-> level_of x ns l).
Proof.
  intros P. unfold has_ext. fold EX. pose proof (find_exts x ns P) as F. destruct (sub_exts x P) as [(-> & E)| ->]; cbn [bind].
  - exists false. split; [reflexivity|]. split; [discriminate|]. intros L. apply (level_exts x ns l P) in L. destruct L as (d & I0 & _). rewrite E in I0. destruct I0.
  - destruct (dict_find (others x) ns (exts x)) as [[]|] eqn:E; try contradiction.
    + destruct F as (I0 & Od).
      assert (X : level_of x ns l <-> dict_find (others x) (bs "ExtensionLevel") d = Some (ONum l)).
      { rewrite (level_exts x ns l P). split.
        - intros (d' & I1 & S). pose proof (in_once x ns _ _ P I0 I1) as Q. injection Q as <-. apply stands_iff, S. exact Od.
        - intros G. exists d. split; [exact I0|]. apply stands_iff; [exact Od|exact G]. }
      destruct (dict_find (others x) (bs "ExtensionLevel") d) as [[]|] eqn:G;
        try (exists false; split; [reflexivity|]; rewrite X; split; discriminate).
      eexists. split; [reflexivity|]. rewrite X, Z.eqb_eq. split; [intros ->; reflexivity|intros H; injection H as ->; reflexivity].
    + exists false. split; [reflexivity|]. split; [discriminate|]. intros L. apply (level_exts x ns l P) in L. destruct L as (d & I0 & _). destruct (F _ I0).
Qed.
Lemma version_table n v : get_version n = v /\ v <> VUnknown <-> In (n, v) table.
Proof.
  split.
  - intros (<- & N). unfold get_version, versions in *. cbn [lookup] in *. unfold table.
    repeat match goal with |- context [if beq n ?k then _ else _] => destruct (beq n k) eqn:?; [match goal with H : beq n k = true |- _ => apply beq_eq in H; subst n end; cbn; tauto|] end.
    destruct (N eq_refl).
  - intros H. unfold table in H. repeat (destruct H as [H|H]; [apply pair_equal_spec in H; destruct H as (<- & <-); split; [reflexivity|discriminate]|]). destruct H.
Qed.
Lemma list_iff look e : ordered e -> dicts e -> exists r, list_exts look e = Ok r /\
  (forall ns v l, In (ns, v, l) r <-> exists d n, In (ns, ODict d) e /\ stands look d (bs "ExtensionLevel") (ONum l) /\ stands look d (bs "BaseVersion") (OName n) /\ In (n, v) table) /\
  NoDup (map (fun p => fst (fst p)) r).
Proof.
  induction e as [|[ns o] e IH]; intros O D; cbn [list_exts].
  - exists []. split; [reflexivity|]. split; [|constructor]. intros ns v l. split; [intros []|]. intros (d & n & [] & _).
  - destruct (D ns o ltac:(left; reflexivity)) as (d & -> & Od). apply Sorted.StronglySorted_inv in O. destruct O as (O & Fo).
    destruct (IH O ltac:(intros ? ? I0; apply (D ns0 v); right; exact I0)) as (r & E & R & N). rewrite E. cbn [bind].
    assert (Skip : (forall v l n, stands look d (bs "ExtensionLevel") (ONum l) -> stands look d (bs "BaseVersion") (OName n) -> In (n, v) table -> False) ->
      exists r', Ok r = Ok r' /\ (forall ns' v l, In (ns', v, l) r' <-> exists d' n, In (ns', ODict d') ((ns, ODict d) :: e) /\ stands look d' (bs "ExtensionLevel") (ONum l) /\
        stands look d' (bs "BaseVersion") (OName n) /\ In (n, v) table) /\ NoDup (map (fun p => fst (fst p)) r')).
    { intros No. exists r. split; [reflexivity|]. split; [|exact N]. intros ns' v l. rewrite R. split.
      - intros (d' & n & I0 & X). exists d', n. split; [right; exact I0|exact X].
      - intros (d' & n & [I0|I0] & X); [|exists d', n; split; [exact I0|exact X]]. apply pair_equal_spec in I0. destruct I0 as (_ & I0). injection I0 as <-.
        destruct X as (X1 & X2 & X3). destruct (No _ _ _ X1 X2 X3). }
    destruct (dict_find look (bs "BaseVersion") d) as [bo|] eqn:B.
    2: { apply Skip. intros v l n _ S _. apply stands_iff in S; [|exact Od]. rewrite B in S. discriminate S. }
    destruct bo as [|b0|z0|m0 q0|n|h0 s0|n0 g0|l0|d0]; try (apply Skip; intros v l n' _ S _; apply stands_iff in S; [|exact Od]; rewrite B in S; discriminate S).
    destruct (dict_find look (bs "ExtensionLevel") d) as [lo|] eqn:L.
    2: { apply Skip. intros v l n' S _ _. apply stands_iff in S; [|exact Od]. rewrite L in S. discriminate S. }
    destruct lo as [|b0|lv|m0 q0|s1|h0 s0|n0 g0|l0|d0]; try (apply Skip; intros v l n' S _ _; apply stands_iff in S; [|exact Od]; rewrite L in S; discriminate S).
    assert (Unk : get_version n = VUnknown -> forall v l n', stands look d (bs "ExtensionLevel") (ONum l) -> stands look d (bs "BaseVersion") (OName n') -> In (n', v) table -> False).
    { intros U v l n' _ S T. apply stands_iff in S; [|exact Od]. rewrite B in S. injection S as <-. apply version_table in T. destruct T as (T1 & T2). congruence. }
    assert (Known : get_version n <> VUnknown -> exists r', Ok ((ns, get_version n, lv) :: r) = Ok r' /\
      (forall ns' v l, In (ns', v, l) r' <-> exists d' n, In (ns', ODict d') ((ns, ODict d) :: e) /\ stands look d' (bs "ExtensionLevel") (ONum l) /\
        stands look d' (bs "BaseVersion") (OName n) /\ In (n, v) table) /\ NoDup (map (fun p => fst (fst p)) r')).
    { intros U. eexists. split; [reflexivity|]. split.
      - intros ns' v l. split.
        + intros [H|H].
          * apply pair_equal_spec in H. destruct H as (H & <-). apply pair_equal_spec in H. destruct H as (<- & <-). exists d, n. split; [left; reflexivity|].
            split; [apply stands_iff; [exact Od|exact L]|]. split; [apply stands_iff; [exact Od|exact B]|]. apply version_table. split; [reflexivity|exact U].
          * apply R in H. destruct H as (d' & n' & I0 & X). exists d', n'. split; [right; exact I0|exact X].
        + intros (d' & n' & [I0|I0] & X); [left|right; apply R; exists d', n'; split; assumption].
          apply pair_equal_spec in I0. destruct I0 as (<- & I0). injection I0 as <-. destruct X as (X1 & X2 & X3).
          apply stands_iff in X1; [|exact Od]. rewrite L in X1. injection X1 as <-. apply stands_iff in X2; [|exact Od]. rewrite B in X2. injection X2 as <-.
          apply version_table in X3. destruct X3 as (<- & _). reflexivity.
      - cbn [map fst]. constructor; [|exact N]. intros I0. apply in_map_iff in I0. destruct I0 as (((ns' & v) & l) & E' & I0). cbn [fst] in E'. subst ns'.
        apply R in I0. destruct I0 as (d' & n' & I0 & _). rewrite Forall_forall in Fo. specialize (Fo _ I0). cbn [fst] in Fo. rewrite DictProofs.bytes_lt_irrefl in Fo. discriminate Fo. }
    destruct (get_version n) eqn:V; [apply Skip, Unk; reflexivity|..]; apply Known; discriminate.
Qed.
Lemma get_iff_exts x : prop x -> exists r, get_exts x = Ok r /\ (forall ns v l, In (ns, v, l) r <-> declares x ns v l) /\ NoDup (map (fun p => fst (fst p)) r).
Proof.
  intros P. destruct (exts_ok x P) as (O & D). destruct (list_iff (others x) (exts x) O D) as (r & E & R & N). exists r. split.
  - unfold get_exts. fold EX. destruct (sub_exts x P) as [(-> & Q)| ->]; cbn [bind]; [rewrite Q in E; exact E|exact E].
  - split; [|exact N]. intros ns v l. rewrite (declares_exts x ns v l P). apply R.
Qed.
(** An entry is put under the extensions *)
Lemma put_exts x e : prop x -> ordered e -> dicts e -> let x' := (match dict_find (others x) EX (root x) with Some (ODict _) => put_sub EX e x | _ => with_root x (add_key EX (ODict e) (root x)) end) in
  prop x' /\ exts x' = e /\ (forall r o, direct o -> (forall d, o <> ODict d) -> others x' r = Some o <-> others x r = Some o).
Proof.
  intros P Oe De. pose proof P as (O & D). cbv zeta.
  assert (K : let x' := with_root x (add_key EX (ODict e) (root x)) in
    prop x' /\ exts x' = e /\ (forall r o, direct o -> (forall d, o <> ODict d) -> others x' r = Some o <-> others x r = Some o)).
  { assert (Dv : direct (ODict e)) by (intros ? ? X; discriminate X). cbv zeta. unfold prop, exts, with_root. cbn [root others].
    rewrite (add_find (others x) EX (ODict e) EX _ O Dv), beq_refl. split; [split; [apply add_ord, O|split; assumption]|]. split; [reflexivity|]. intros; reflexivity. }
  destruct (dict_find (others x) EX (root x)) as [o|] eqn:E; [|exact K]. destruct o as [|b0|z0|m0 q0|s1|h0 s0|n0 g0|l0|d0]; try exact K.
  unfold put_sub. destruct (get_key EX (root x)) as [o|] eqn:G; [|exact K]. destruct o as [|b0|z0|m0 q0|s1|h0 s0|n g|l0|d1]; try exact K.
  unfold get_key in G. unfold dict_find, get_key in E. rewrite G in E. unfold prop, exts, dict_find, get_key. cbn [root others]. rewrite G, set_same.
  split; [split; [exact O|split; assumption]|]. split; [reflexivity|]. intros r o Do Nd. destruct (ListModel.ref_eqb r (n, g)) eqn:Q.
  - apply ListProofs.ref_eqb_iff in Q. subst r. rewrite set_same, E. split; intros H; injection H as H; destruct (Nd _ (eq_sym H)).
  - apply ListProofs.ref_eqb_false in Q. rewrite (set_other _ _ _ _ Q). reflexivity.
Qed.
Lemma same_stands (h h' : heap) : (forall r o, direct o -> (forall d, o <> ODict d) -> h' r = Some o <-> h r = Some o) -> forall d k o, direct o -> (forall d, o <> ODict d) ->
  stands h' d k o <-> stands h d k o.
Proof.
  intros H d k o D N. unfold stands. split; (intros [X|(n & g & I0 & L)]; [left; exact X|right; exists n, g; split; [exact I0|apply (H (n, g) o D N), L]]).
Qed.
Lemma add_iff ver ns l x : prop x -> ver <> VUnknown -> exists x', add_ext ver ns l x = Ok x' /\ prop x' /\ (level_of x ns l -> x' = x) /\
  (~ level_of x ns l -> (forall ns' l', level_of x' ns' l' <-> (ns' = ns /\ l' = l) \/ (ns' <> ns /\ level_of x ns' l')) /\
    forall ns' v' l', declares x' ns' v' l' <-> (ns' = ns /\ v' = ver /\ l' = l) \/ (ns' <> ns /\ declares x ns' v' l')).
Proof.
  intros P U. unfold add_ext. destruct (has_iff ns l x P) as (b & H & B). rewrite H. cbn [bind]. destruct b.
  - exists x. split; [reflexivity|]. split; [exact P|]. split; [reflexivity|]. intros N. destruct N. apply B. reflexivity.
  - assert (NL : ~ level_of x ns l) by (intros L; apply B in L; discriminate L).
    assert (VN : exists n, version_name ver = Ok n /\ In (n, ver) table /\ forall v, In (n, v) table -> v = ver).
    { destruct ver; [destruct (U eq_refl)|..]; eexists; (split; [reflexivity|]; split; [cbn; tauto|]); intros v I0; apply version_table in I0; destruct I0 as (<- & _); reflexivity. }
    destruct VN as (n & VN & T & TU). rewrite VN. cbn [bind]. destruct (exts_ok x P) as (O & D).
    set (new := add_key (bs "ExtensionLevel") (ONum l) (add_key (bs "BaseVersion") (OName n) [])).
    assert (On : ordered new) by (apply add_ord, add_ord, ord_nil).
    assert (Oe : ordered (add_key ns (ODict new) (exts x))) by (apply add_ord, O).
    assert (In_iff : forall ns' d, In (ns', ODict d) (add_key ns (ODict new) (exts x)) <-> (ns' = ns /\ d = new) \/ (ns' <> ns /\ In (ns', ODict d) (exts x))).
    { intros ns' d. rewrite <- (get_iff _ _ _ Oe), (add_get _ _ _ _ O), <- (get_iff _ _ _ O). destruct (beq ns' ns) eqn:Q.
      - apply beq_eq in Q. subst ns'. split; [intros X; injection X as <-; left; split; reflexivity|]. intros [(_ & ->)|(N & _)]; [reflexivity|destruct (N eq_refl)].
      - assert (N : ns' <> ns) by (intros ->; rewrite beq_refl in Q; discriminate Q). split; [right; split; assumption|]. intros [(X & _)|(_ & X)]; [destruct (N X)|exact X]. }
    assert (De : dicts (add_key ns (ODict new) (exts x))).
    { intros ns' v I0. apply DictProofs.dict_add_in in I0. destruct I0 as [I0|I0]; [|exact (D _ _ I0)]. apply pair_equal_spec in I0. destruct I0 as (_ & ->). exists new. split; [reflexivity|exact On]. }
    destruct (put_exts x _ P Oe De) as (P' & E' & S').
    assert (Eq : match dict_find (others x) (bs "Extensions") (root x) with
      | Some (ODict e) => Ok (put_sub (bs "Extensions") (add_key ns (ODict new) e) x)
      | _ => Ok (with_root x (add_key (bs "Extensions") (ODict (add_key ns (ODict new) [])) (root x))) end =
      Ok (match dict_find (others x) EX (root x) with Some (ODict _) => put_sub EX (add_key ns (ODict new) (exts x)) x
        | _ => with_root x (add_key EX (ODict (add_key ns (ODict new) (exts x))) (root x)) end)).
    { fold EX. unfold exts. destruct (dict_find (others x) EX (root x)) as [[]|]; reflexivity. }
    rewrite Eq. eexists. split; [reflexivity|]. set (x' := match dict_find (others x) EX (root x) with Some (ODict _) => _ | _ => _ end) in *.
    split; [exact P'|]. split; [intros L; contradiction|]. intros _.
    pose proof (same_stands _ _ S') as SS.
    assert (SL : forall d q, stands (others x') d (bs "ExtensionLevel") (ONum q) <-> stands (others x) d (bs "ExtensionLevel") (ONum q)) by (intros; apply SS; intros; discriminate).
    assert (SB : forall d q, stands (others x') d (bs "BaseVersion") (OName q) <-> stands (others x) d (bs "BaseVersion") (OName q)) by (intros; apply SS; intros; discriminate).
    assert (NL' : forall q, stands (others x) new (bs "ExtensionLevel") (ONum q) <-> q = l).
    { intros q. rewrite (stands_iff _ _ _ _ On). change (Some (ONum l) = Some (ONum q) <-> q = l). split; [intros X; injection X as ->; reflexivity|intros ->; reflexivity]. }
    assert (NB' : forall q, stands (others x) new (bs "BaseVersion") (OName q) <-> q = n).
    { intros q. rewrite (stands_iff _ _ _ _ On). change (Some (OName n) = Some (OName q) <-> q = n). split; [intros X; injection X as ->; reflexivity|intros ->; reflexivity]. }
    split.
    + intros ns' l'. rewrite (level_exts x' ns' l' P'), (level_exts x ns' l' P), E'. split.
      * intros (d & I0 & L). apply In_iff in I0. apply SL in L. destruct I0 as [(-> & ->)|(N & I0)]; [left; split; [reflexivity|apply NL', L]|right; split; [exact N|exists d; split; assumption]].
      * intros [(-> & ->)|(N & d & I0 & L)]; [exists new|exists d]; (split; [apply In_iff|apply SL]); [left; split; reflexivity|apply NL'; reflexivity|right; split; assumption|exact L].
    + intros ns' v' l'. rewrite (declares_exts x' ns' v' l' P'), (declares_exts x ns' v' l' P), E'. split.
      * intros (d & m & I0 & L & V & W). apply In_iff in I0. apply SL in L. apply SB in V. destruct I0 as [(-> & ->)|(N & I0)].
        -- left. split; [reflexivity|]. apply NB' in V. subst m. split; [apply TU, W|apply NL', L].
        -- right. split; [exact N|]. exists d, m. repeat split; assumption.
      * intros [(-> & -> & ->)|(N & d & m & I0 & L & V & W)].
        -- exists new, n. split; [apply In_iff; left; split; reflexivity|]. split; [apply SL, NL'; reflexivity|]. split; [apply SB, NB'; reflexivity|exact T].
        -- exists d, m. split; [apply In_iff; right; split; assumption|]. split; [apply SL, L|]. split; [apply SB, V|exact W].
Qed.
Lemma remove_nothing ns l x : prop x -> (forall v, ~ In (bs "ns", v) (exts x)) -> exists x', remove_ext ns l x = Ok x' /\
  (forall ns' l', level_of x' ns' l' <-> level_of x ns' l') /\ forall ns' v' l', declares x' ns' v' l' <-> declares x ns' v' l'.
Proof.
  intros P NI. unfold remove_ext. destruct (has_iff ns l x P) as (b & H & B). rewrite H. cbn [bind]. fold EX. destruct b.
  2: { exists x. split; [reflexivity|]. split; intros; reflexivity. }
  destruct (exts_ok x P) as (O & D). pose proof (proj1 B eq_refl) as L. apply (level_exts x ns l P) in L. destruct L as (d & I0 & _).
  destruct (sub_exts x P) as [(_ & E)|E]; [rewrite E in I0; destruct I0|]. rewrite E. cbn [bind].
  assert (R : snd (remove_key (bs "ns") (exts x)) = exts x).
  { unfold remove_key, has_key. destruct (dict_get (bs "ns") (exts x)) eqn:G; [apply (get_iff _ _ _ O) in G; destruct (NI _ G)|reflexivity]. }
  rewrite R. assert (F : dict_find (others x) EX (root x) = Some (ODict (exts x))).
  { unfold sub_dict in E. unfold exts in *. destruct (dict_find (others x) EX (root x)) as [[]|]; try discriminate E; reflexivity. }
  pose proof (put_exts x (exts x) P O D) as Q. cbv zeta in Q. rewrite F in Q. destruct Q as (P' & E' & S'). eexists. split; [reflexivity|].
  pose proof (same_stands _ _ S') as SS.
  assert (SL : forall d q, stands (others (put_sub EX (exts x) x)) d (bs "ExtensionLevel") (ONum q) <-> stands (others x) d (bs "ExtensionLevel") (ONum q)) by (intros; apply SS; intros; discriminate).
  assert (SB : forall d q, stands (others (put_sub EX (exts x) x)) d (bs "BaseVersion") (OName q) <-> stands (others x) d (bs "BaseVersion") (OName q)) by (intros; apply SS; intros; discriminate).
  split.
  - intros ns' l'. rewrite (level_exts _ ns' l' P'), (level_exts x ns' l' P), E'. split; intros (d' & I1 & L1); exists d'; (split; [exact I1|apply SL, L1]).
  - intros ns' v' l'. rewrite (declares_exts _ ns' v' l' P'), (declares_exts x ns' v' l' P), E'.
    split; intros (d' & m & I1 & L1 & V1 & W1); exists d', m; (split; [exact I1|]; split; [apply SL, L1|]; split; [apply SB, V1|exact W1]).
Qed.
End Extensions.
