(** Lemmas for the appearance characteristics of widgets *)
From Coq Require Import String QArith.
From Verif Require Import Base TokModel OwnModel ListModel PageModel ColorModel LinkSpec CharsModel CharsSpec ChainProofs.
From Verif Require DictProofs LinkProofs NameProofs SigValueProofs.
Local Open Scope Z_scope.
Import SigValueProofs.

Lemma key_name t : trait_key t = entry_name t.
Proof. destruct t; reflexivity. Qed.
(** The entries of the dictionary *)
Definition fits (g : trait -> option obj) (v : list (list Z * obj)) : Prop :=
  DictProofs.sorted v /\ (forall t, dict_get (entry_name t) v = g t) /\ forall k, (forall t, k <> entry_name t) -> dict_get k v = None.
Definition winv (w : ref) (m : Z) (s : wst) (x : traits) : Prop :=
  fst w < m /\ m <= w_next s /\ exists d, w_heap s w = Some (ODict d) /\
  match x with
  | None => w_chars s = None /\ dict_get (bs "MK") d = None /\ w_next s = m
  | Some g => exists v, w_chars s = Some (MkAt (m, 0)) /\ dict_get (bs "MK") d = Some (ORef m 0) /\ w_heap s (m, 0) = Some (ODict v) /\ fits g v /\ w_next s = m + 1
  end.
Lemma fits_add g v t o : fits g v -> fits (fun u => if same_trait t u then Some o else g u) (add_key (trait_key t) o v).
Proof.
  intros (S & G & R). rewrite key_name. split; [apply DictProofs.dict_add_sorted, S|]. split.
  - intros u. rewrite get_added. unfold same_trait. rewrite G. destruct t, u; reflexivity.
  - intros k N. rewrite get_added. destruct (beq k (entry_name t)) eqn:E; [apply beq_eq in E; destruct (N t E)|apply R, N].
Qed.
Lemma fits_clear g v t : fits g v -> fits (fun u => if same_trait t u then None else g u) (snd (remove_key (trait_key t) v)).
Proof.
  intros (S & G & R). rewrite key_name. split; [apply removed_sorted, S|]. split.
  - intros u. rewrite get_removed by exact S. unfold same_trait. rewrite G. destruct t, u; reflexivity.
  - intros k N. rewrite get_removed by exact S. destruct (beq k (entry_name t)); [reflexivity|apply R, N].
Qed.
Lemma fits_nil : fits (fun _ => None) [].
Proof. split; [constructor|]. split; intros; reflexivity. Qed.
Lemma create_inv w m s x : winv w m s x -> exists s1, get_or_create s w = Ok (s1, MkAt (m, 0)) /\ winv w m s1 (Some (of_trait x)).
Proof.
  intros (L & M & d & W & I). unfold get_or_create. destruct x as [g|].
  - destruct I as (v & C & D & H & F & N). rewrite C. exists s. split; [reflexivity|]. split; [exact L|]. split; [exact M|]. exists d. split; [exact W|].
    exists v. repeat split; try assumption; apply F.
  - destruct I as (C & D & N). rewrite C, N. cbn [fst snd].
    assert (X : w <> (m, 0)) by (intros E; subst w; cbn in L; lia).
    assert (W1 : set (m, 0) (Some (ODict [])) (w_heap s) w = Some (ODict d)) by (rewrite set_other by exact X; exact W).
    rewrite (NameProofs.set_key_val _ _ _ _ _ W1). cbn [bind]. eexists. split; [reflexivity|].
    split; [exact L|]. split; [cbn; lia|]. exists (dict_add (bs "MK") (ORef m 0) d). cbn [w_heap w_chars w_next]. rewrite set_same. split; [reflexivity|].
    exists []. split; [reflexivity|]. split; [apply LinkProofs.get_add_same|]. split; [|split; [exact fits_nil|reflexivity]].
    rewrite set_other by (intros E; apply X; symmetry; exact E). apply set_same.
Qed.
(** One change of the dictionary *)
Lemma chars_inv w m s g g' u : winv w m s (Some g) -> (forall v, fits g v -> fits g' (u v)) ->
  exists v, chars_dict (w_heap s) w (MkAt (m, 0)) = Ok v /\ w_chars s = Some (MkAt (m, 0)) /\
    winv w m (mk_wst (put_chars (w_heap s) w (MkAt (m, 0)) (u v)) (w_next s) (w_chars s)) (Some g').
Proof.
  intros (L & M & d & W & v & C & D & H & F & N) U. exists v. cbn [chars_dict put_chars]. unfold dict_at. rewrite H. split; [reflexivity|]. split; [exact C|].
  split; [exact L|]. split; [exact M|]. exists d. cbn [w_heap w_chars w_next].
  rewrite set_other by (intros E; subst w; cbn in L; lia). split; [exact W|]. exists (u v). rewrite set_same. repeat split; try assumption; apply (U v F).
Qed.
Lemma wstep_inv w m s x o : winv w m s x -> winv w m (fst (wstep w s o)) (note x o) /\
  snd (wstep w s o) = match o with Put _ (Ok _) => Ok tt | Put _ (Err e) => Err e | Put _ UB => UB | Put _ Fuel => Fuel | Clear _ => Ok tt end.
Proof.
  intros I. destruct o as [t v|t]; cbn [wstep].
  - unfold put. destruct (create_inv w m s x I) as (s1 & -> & J). destruct v as [o|e| |]; cbn [note]; try (split; [exact J|reflexivity]).
    destruct (chars_inv w m s1 _ _ (add_key (trait_key t) o) J (fun v => fits_add (of_trait x) v t o)) as (v & -> & _ & K).
    split; [exact K|reflexivity].
  - unfold clear. destruct x as [g|].
    + destruct (chars_inv w m s _ _ (fun v => snd (remove_key (trait_key t) v)) I (fun v => fits_clear g v t)) as (v & E & C & K).
      rewrite C, E. rewrite C in K. split; [exact K|reflexivity].
    + pose proof I as (_ & _ & d & _ & C & _). rewrite C. split; [exact I|reflexivity].
Qed.
Lemma wrun_inv w m : forall l s x, winv w m s x -> winv w m (wrun w s l) (fold_left note l x).
Proof. induction l as [|o l IH]; intros s x I; [exact I|]. apply (IH (fst (wstep w s o))), (wstep_inv w m s x o I). Qed.
Lemma winv_says w m s x : winv w m s x -> characteristics (w_heap s) w x.
Proof.
  intros (L & M & d & W & I). exists d. split; [exact W|]. destruct x as [g|]; [|exact (proj1 (proj2 I))].
  destruct I as (v & C & D & H & (S & G & R) & N). exists m, 0, v. repeat split; assumption.
Qed.
(** What the getters find *)
Definition direct (o : option obj) : Prop := match o with Some (ORef _ _) => False | _ => True end.
Lemma winv_find f w m s x t : winv w m s x -> direct (of_trait x t) -> find_trait (S f) s w t = Ok (of_trait x t).
Proof.
  intros (L & M & d & W & I) N. unfold find_trait. destruct x as [g|]; [|rewrite (proj1 I); reflexivity].
  destruct I as (v & C & D & H & (S & G & R) & _). rewrite C. cbn [chars_dict]. unfold dict_at. rewrite H. cbn [bind find_key_parent]. rewrite key_name.
  cbn [of_trait] in N |- *. unfold dict_find, get_key. rewrite G. destruct (g t) as [[]|] eqn:E; try reflexivity; [destruct N|].
  rewrite R by (intros u; destruct u; discriminate). reflexivity.
Qed.
Definition plain (o : wop) : Prop := match o with Put _ (Ok v) => direct (Some v) | _ => True end.
Lemma note_direct l : Forall plain l -> forall x, (forall t, direct (of_trait x t)) -> forall t, direct (of_trait (fold_left note l x) t).
Proof.
  induction 1 as [|o l P F IH]; intros x D; [exact D|]. cbn [fold_left]. apply IH. intros t. destruct o as [u [v|e| |]|u]; cbn [note of_trait change_trait]; try apply D.
  - destruct (same_trait u t); [exact P|apply D].
  - destruct x as [g|]; [|exact (D t)]. cbn [change_trait of_trait]. destruct (same_trait u t); [exact I|apply D].
Qed.
Lemma winv_open w m s x : winv w m s x -> open_widget (w_heap s) (w_next s) w = Ok s.
Proof.
  intros (L & M & d & W & I). unfold open_widget, dict_at. rewrite W. cbn [bind]. unfold get_key. destruct s as [h n c]. cbn [w_heap w_next w_chars] in *. destruct x as [g|].
  - destruct I as (v & C & D & H & _). rewrite D, H, C. reflexivity.
  - destruct I as (C & D & _). rewrite D, C. reflexivity.
Qed.
(** No other object changes *)
Lemma wstep_frame w m s x o q : winv w m s x -> q <> w -> q <> (m, 0) -> w_heap (fst (wstep w s o)) q = w_heap s q.
Proof.
  intros I N1 N2. destruct o as [t v|t]; cbn [wstep].
  - unfold put. destruct (create_inv w m s x I) as (s1 & E & J). rewrite E.
    assert (K : w_heap s1 q = w_heap s q).
    { unfold get_or_create in E. destruct (w_chars s) eqn:C; [apply ok_inj in E; apply pair_equal_spec in E as [<- _]; reflexivity|].
      destruct I as (_ & _ & d & W & I). destruct x as [g|]; [destruct I as (v0 & X & _); rewrite C in X; discriminate X|]. destruct I as (_ & _ & Nx).
      apply bind_ok in E as (h & H & E). apply ok_inj in E. apply pair_equal_spec in E as [<- _]. cbn [w_heap]. unfold set_key in H.
      apply bind_ok in H as (d1 & _ & H). apply ok_inj in H. subst h. rewrite set_other by exact N1. rewrite Nx. apply set_other, N2. }
    destruct v as [o|e| |]; try exact K. destruct (chars_dict (w_heap s1) w (MkAt (m, 0))) as [v|e| |]; try exact K.
    cbn [fst w_heap put_chars]. rewrite set_other by exact N2. exact K.
  - unfold clear. destruct x as [g|].
    + destruct I as (_ & _ & d & _ & v & C & _). rewrite C. destruct (chars_dict (w_heap s) w (MkAt (m, 0))) as [v'|e| |]; try reflexivity.
      cbn [fst w_heap put_chars]. apply set_other, N2.
    + destruct I as (_ & _ & d & _ & C & _). rewrite C. reflexivity.
Qed.
Lemma wrun_frame w m q : q <> w -> q <> (m, 0) -> forall l s x, winv w m s x -> w_heap (wrun w s l) q = w_heap s q.
Proof.
  intros N1 N2. induction l as [|o l IH]; intros s x I; [reflexivity|]. cbn [wrun fold_left].
  change (w_heap (wrun w (fst (wstep w s o)) l) q = w_heap s q).
  rewrite (IH _ _ (proj1 (wstep_inv w m s x o I))). exact (wstep_frame w m s x o q I N1 N2).
Qed.
