(** C138, C139: the settings of the catalog and the developer extensions *)
From Coq Require Import String Lia.
From Verif Require Import Base TokModel OwnModel PageModel UtilModel ChainProofs CatalogModel CatalogSpec CatalogProofs.
Local Open Scope Z_scope.

(** C138: any calls that set the page mode, the layout, the viewer preferences, the language and the base, and that read the mode, succeed; the mode
    that is read is the one that was set last or was there before, the entries of the catalog and of the viewer preferences are those that were set
    last, all others are as before, and no object but that of the viewer preferences is changed. Missing: SetUseFullScreen without a page mode
    (refuted below), viewer preferences that share an object with another entry of the catalog. *)
Theorem C138_settings_partial : forall x a l, fits x -> has x a -> calls_ok l a ->
  exists x' r, play l x = Ok (x', r) /\ answered l a r /\ fits x' /\ has x' (after l a) /\
    forall n g, ~ In (bs "ViewerPreferences", ORef n g) (root x) -> others x' (n, g) = others x (n, g).
Proof.
  intros x a l F H K. apply fits_fit in F. apply (has_holds x a F) in H. destruct (play_fit l x a F H K) as (x' & r & P & An & F' & H' & S & _).
  exists x', r. split; [exact P|]. split; [exact An|]. split; [apply fits_fit, F'|]. split; [apply (has_holds x' _ F'), H'|].
  intros n g N. apply S. intros n' g' E G. apply pair_equal_spec in E. destruct E as (<- & <-). apply N. apply (get_iff _ _ _ (proj1 F)), G.
Qed.
Print Assumptions C138_settings_partial.
(** False: full screen mode cannot be set where there is no page mode *)
Theorem C138_full_refuted : forall x, ordered (root x) -> (forall o, ~ stands (others x) (root x) (bs "PageMode") o) -> set_full x = Err ENoObject.
Proof.
  intros x O N. assert (E : dict_find (others x) (bs "PageMode") (root x) = None).
  { destruct (dict_find (others x) (bs "PageMode") (root x)) as [o|] eqn:E; [|reflexivity]. apply stands_iff in E; [|exact O]. destruct (N o E). }
  unfold set_full, get_mode. rewrite E. reflexivity.
Qed.
Print Assumptions C138_full_refuted.
(** False: full screen mode set twice does not keep the mode to go back to *)
Theorem C138_twice_refuted : forall x a, fits x -> has x a -> call_ok SetFull a ->
  exists x' r d, play [SetFull; SetFull] x = Ok (x', r) /\ stands (others x') (root x') (bs "ViewerPreferences") (ODict d) /\
    In (bs "NonFullScreenPageMode", OName (bs "FullScreen")) d.
Proof.
  intros x a F H K. assert (K2 : calls_ok [SetFull; SetFull] a).
  { split; [exact K|]. split; [|exact Logic.I]. exists FullScreen, (bs "FullScreen"). split; [cbn; tauto|reflexivity]. }
  destruct (C138_settings_partial x a _ F H K2) as (x' & r & P & _ & _ & (_ & H') & _).
  destruct (proj1 (H' (bs "NonFullScreenPageMode") (OName (bs "FullScreen"))) eq_refl) as (d & S & I0). exists x', r, d. repeat split; assumption.
Qed.
Print Assumptions C138_twice_refuted.
Definition a_catalog : cat := mk_cat (fun r => if ListModel.ref_eqb r (5, 0) then Some (ODict [(bs "FitWindow", OBool false)]) else if ListModel.ref_eqb r (6, 0) then Some (OName (bs "UseOC")) else None)
  [(bs "PageMode", ORef 6 0); (bs "Pages", ORef 2 0); (bs "Type", OName (bs "Catalog")); (bs "ViewerPreferences", ORef 5 0)].
Definition its_settings : settings := mk_settings
  (fun k => if beq k (bs "PageMode") then Some (OName (bs "UseOC")) else if beq k (bs "Type") then Some (OName (bs "Catalog")) else None)
  (fun k => if beq k (bs "FitWindow") then Some (OBool false) else None).
Example C138_case : exists x', play [GetMode; SetFull; SetViewer (PrintScaling (bs "None")); SetLang (bs "en"); SetLayout OneColumn; SetViewer HideToolbar; GetMode] a_catalog =
    Ok (x', [Some UseOC; None; None; None; None; None; Some FullScreen]) /\
  root x' = [(bs "Lang", OStr false (bs "en")); (bs "PageLayout", OName (bs "OneColumn")); (bs "PageMode", OName (bs "FullScreen")); (bs "Pages", ORef 2 0); (bs "Type", OName (bs "Catalog"));
    (bs "ViewerPreferences", ORef 5 0)] /\
  others x' (5, 0) = Some (ODict [(bs "FitWindow", OBool false); (bs "HideToolbar", OBool true); (bs "NonFullScreenPageMode", OName (bs "UseOC")); (bs "PrintScaling", OName (bs "None"))]).
Proof. eexists. split; [reflexivity|]. split; reflexivity. Qed.
Example C138_conditions : fits a_catalog /\ has a_catalog its_settings.
Proof.
  assert (O : ordered (root a_catalog)) by (repeat constructor).
  assert (F : fit a_catalog).
  { split; [exact O|]. split; [repeat constructor|]. intros k n g H1. injection H1 as <- <-. intros H2. apply (get_iff _ _ _ O) in H2. cbn [root a_catalog List.In] in H2.
    repeat destruct H2 as [H2|H2]; try (apply pair_equal_spec in H2; destruct H2 as (H2 & H3); try discriminate H3; symmetry; exact H2). destruct H2. }
  split; [apply fits_fit, F|]. apply (has_holds _ _ F). split.
  - intros k N. unfold its_settings, a_catalog, dict_find, get_key. cbn [entries root others dict_get].
    destruct (beq k (bs "PageMode")); [reflexivity|]. destruct (beq k (bs "Pages")) eqn:P; [apply beq_eq in P; subst k; reflexivity|].
    destruct (beq k (bs "Type")); [reflexivity|]. fold VP. rewrite (beq_neq k VP N). reflexivity.
  - intros k. unfold vp. change (dict_find (others a_catalog) VP (root a_catalog)) with (Some (ODict [(bs "FitWindow", OBool false)])). reflexivity.
Qed.

(** C139: developer extensions. Whether there is one, at which level and of which version, is read as the dictionary says. [declares], [level_of] and
    [proper] are in CatalogSpec *)
Theorem C139_has : forall x ns l, proper x -> exists b, has_ext ns l x = Ok b /\ (b = true <-> level_of x ns l).
Proof. intros x ns l P. apply has_iff, proper_prop, P. Qed.
Print Assumptions C139_has.
Theorem C139_list : forall x, proper x -> exists r, get_exts x = Ok r /\ (forall ns v l, In (ns, v, l) r <-> declares x ns v l) /\ NoDup (map (fun p => fst (fst p)) r).
Proof. intros x P. apply get_iff_exts, proper_prop, P. Qed.
Print Assumptions C139_list.
(** Adding an extension that is not there at this level replaces that of its name and keeps the others; adding one that is there changes nothing *)
Theorem C139_add : forall x v ns l, proper x -> v <> VUnknown -> exists x', add_ext v ns l x = Ok x' /\ proper x' /\ (level_of x ns l -> x' = x) /\
  (~ level_of x ns l -> (forall ns' l', level_of x' ns' l' <-> (ns' = ns /\ l' = l) \/ (ns' <> ns /\ level_of x ns' l')) /\
    forall ns' v' l', declares x' ns' v' l' <-> (ns' = ns /\ v' = v /\ l' = l) \/ (ns' <> ns /\ declares x ns' v' l')).
Proof.
  intros x v ns l P U. apply proper_prop in P. destruct (add_iff v ns l x P U) as (x' & A & P' & R). exists x'. split; [exact A|]. split; [apply proper_prop, P'|exact R].
Qed.
Print Assumptions C139_add.
(** False: removing an extension removes nothing, unless there is one with the name ns *)
Theorem C139_remove_refuted : forall x ns l, proper x -> (forall e v, stands (others x) (root x) (bs "Extensions") (ODict e) -> ~ In (bs "ns", v) e) -> level_of x ns l ->
  exists x', remove_ext ns l x = Ok x' /\ level_of x' ns l /\ (forall ns' l', level_of x' ns' l' <-> level_of x ns' l') /\
    forall ns' v' l', declares x' ns' v' l' <-> declares x ns' v' l'.
Proof.
  intros x ns l P N L. apply proper_prop in P. assert (N' : forall v, ~ In (bs "ns", v) (exts x)).
  { intros v I0. destruct (exts_ok x P) as (_ & D). destruct (D _ _ I0) as (d & -> & _). apply (stands_exts x _ d P) in I0. destruct I0 as (e & S & I0). exact (N e _ S I0). }
  destruct (remove_nothing ns l x P N') as (x' & R & A & B). exists x'. split; [exact R|]. split; [apply A, L|]. split; [exact A|exact B].
Qed.
Print Assumptions C139_remove_refuted.
(** False: where the extensions have a Type, as the standard allows, they are not listed *)
Theorem C139_type_refuted : forall x e n, ordered (root x) -> stands (others x) (root x) (bs "Extensions") (ODict e) -> In (bs "Type", OName n) e -> get_exts x = Err EInvalidDataType.
Proof.
  intros x e n O S I0. apply stands_iff in S; [|exact O]. unfold get_exts, sub_dict. rewrite S. cbn [bind]. clear S. induction e as [|[k o] e IH]; [destruct I0|].
  cbn [list_exts]. destruct o; try reflexivity. destruct I0 as [I0|I0]; [apply pair_equal_spec in I0; destruct I0 as (_ & I0); discriminate I0|]. rewrite (IH I0). reflexivity.
Qed.
Print Assumptions C139_type_refuted.
Definition with_exts : cat := mk_cat (fun r => if ListModel.ref_eqb r (8, 0) then Some (ODict [(bs "ADBE", ODict [(bs "BaseVersion", OName (bs "1.7")); (bs "ExtensionLevel", ORef 9 0)])])
    else if ListModel.ref_eqb r (9, 0) then Some (ONum 3) else None)
  [(bs "Extensions", ORef 8 0); (bs "Type", OName (bs "Catalog"))].
Example C139_case : exists x1 x2, get_exts with_exts = Ok [(bs "ADBE", V17, 3)] /\ has_ext (bs "ADBE") 3 with_exts = Ok true /\ add_ext V20 (bs "GLGR") 1 with_exts = Ok x1 /\
  get_exts x1 = Ok [(bs "ADBE", V17, 3); (bs "GLGR", V20, 1)] /\ add_ext V20 (bs "ADBE") 5 x1 = Ok x2 /\ get_exts x2 = Ok [(bs "ADBE", V20, 5); (bs "GLGR", V20, 1)] /\
  has_ext (bs "ADBE") 3 x2 = Ok false.
Proof. eexists. eexists. repeat (split; [reflexivity|]). reflexivity. Qed.
Example C139_conditions : proper with_exts /\ level_of with_exts (bs "ADBE") 3 /\ declares with_exts (bs "ADBE") V17 3.
Proof.
  assert (P : prop with_exts).
  { split; [repeat constructor|]. split; [repeat constructor|]. intros ns v [I0|[]]. apply pair_equal_spec in I0. destruct I0 as (_ & <-). eexists. split; [reflexivity|repeat constructor]. }
  split; [apply proper_prop, P|]. split.
  - destruct (has_iff (bs "ADBE") 3 with_exts P) as (b & H & B). apply B. assert (X : Ok true = Ok b) by (rewrite <- H; reflexivity). injection X as <-. reflexivity.
  - destruct (get_iff_exts with_exts P) as (r & G & R & _). apply R. assert (X : Ok [(bs "ADBE", V17, 3)] = Ok r) by (rewrite <- G; reflexivity). injection X as <-. left. reflexivity.
Qed.
