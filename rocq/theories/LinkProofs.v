(** Lemmas about the model of destinations and actions. *)
From Coq Require Import String QArith.
From Verif Require Import Base ChainProofs TokModel DictProofs OwnModel ListModel PageModel PageProofs LinkSpec LinkModel.
Local Open Scope Z_scope.

(** ** Numbers *)
Lemma pow10_pos k : 0 < 10 ^ Z.of_nat k.
Proof. apply Z.pow_pos_nonneg; lia. Qed.
Lemma pow10_nz k : ~ (inject_Z (10 ^ Z.of_nat k) == 0)%Q.
Proof. pose proof (pow10_pos k). unfold Qeq, inject_Z. cbn [Qnum Qden]. lia. Qed.
Lemma real_is a : number_is (real a) (val a).
Proof. destruct a as [m k]. constructor. reflexivity. Qed.
Lemma real_is_eq a q : (q == val a)%Q -> number_is (real a) q.
Proof. intro E. destruct a as [m k]. constructor. exact E. Qed.
Lemma val_add a b : (val (dadd a b) == val a + val b)%Q.
Proof.
  destruct a as [m k], b as [n j]. unfold val, dadd. cbn [fst snd].
  rewrite Nat2Z.inj_add, Z.pow_add_r by lia. rewrite inject_Z_plus, !inject_Z_mult.
  field. split; apply pow10_nz.
Qed.
Lemma get_real_is o q : number_is o q -> exists a, get_real o = Ok a /\ (val a == q)%Q.
Proof.
  destruct 1 as [n|m k q E]; cbn [get_real].
  - eexists. split; [reflexivity|]. unfold val. cbn [fst snd]. change (10 ^ Z.of_nat 0) with 1. field.
  - eexists. split; [reflexivity|]. unfold val. cbn [fst snd]. symmetry. exact E.
Qed.
Lemma get_real_num o q : param_is o (Some q) -> exists a, get_real o = Ok a /\ (val a == q)%Q.
Proof. intro P. inversion P; subst. apply get_real_is. assumption. Qed.

(** ** The constructors *)
Definition fit_view (f : fit) : option view := match f with FFit => Some VFit | FFitB => Some VFitB | _ => None end.
Definition value_view (f : fit) (q : Q) : option view :=
  match f with FFitH => Some (VFitH (Some q)) | FFitV => Some (VFitV (Some q)) | FFitBH => Some (VFitBH (Some q)) | FFitBV => Some (VFitBV (Some q)) | _ => None end.
Lemma fit_made page f v : fit_view f = Some v -> destination (dest_fit page f) page v.
Proof. destruct page as [n g]. destruct f; intro E; try discriminate E; injection E as <-; constructor; constructor. Qed.
Lemma value_made page f x v : value_view f (val x) = Some v -> exists arr, dest_value page f x = Ok arr /\ destination arr page v.
Proof.
  destruct page as [n g]. destruct f; intro E; try discriminate E; injection E as <-; (eexists; split; [reflexivity|]);
  constructor; constructor; constructor; apply real_is.
Qed.
Lemma value_refused page f x : value_view f (val x) = None -> dest_value page f x = Err EInvalidKey.
Proof. destruct f; intro E; try discriminate E; reflexivity. Qed.
Lemma xyz_made page l t z : destination (dest_xyz page l t z) page (VXYZ (Some (val l)) (Some (val t)) (Some (val z))).
Proof. destruct page as [n g]. repeat constructor. Qed.
Lemma rect_made page r :
  destination (dest_rect page r) page (VFitR (val (dl r)) (val (db r)) (val (dl r) + val (dw r))%Q (val (db r) + val (dh r))%Q).
Proof.
  destruct page as [n g]. constructor. constructor; try apply real_is; apply real_is_eq; rewrite val_add; ring.
Qed.

(** ** The getters *)
Definition kind (v : view) : dtype :=
  match v with
  | VXYZ _ _ _ => TXYZ | VFit => TFit | VFitH _ => TFitH | VFitV _ => TFitV | VFitR _ _ _ _ => TFitR | VFitB => TFitB
  | VFitBH _ => TFitBH | VFitBV _ => TFitBV
  end.
(** What a getter is to give for the parameter [p] of a view: its number, or the error for the lack of it *)
Definition answers (r : res dec) (p : option (option Q)) : Prop :=
  match p with
  | Some (Some q) => exists a, r = Ok a /\ (val a == q)%Q
  | Some None => r = Err EInvalidDataType
  | None => r = Err EWrongDestinationType
  end.
Lemma type_read arr page v : destination arr page v -> dest_type arr = Ok (kind v).
Proof. intro D. destruct D as [n g arr v V]. destruct V; reflexivity. Qed.
Lemma page_read arr page v : destination arr page v -> get_page_ref arr = Ok (Some page).
Proof. intro D. destruct D. reflexivity. Qed.
Lemma param_answers o q : param_is o q -> answers (get_real o) (Some q).
Proof. intro P. destruct P as [|o q N]; [reflexivity|]. apply get_real_is, N. Qed.
Lemma number_answers o q : number_is o q -> answers (get_real o) (Some (Some q)).
Proof. intro N. apply get_real_is, N. Qed.
Ltac getter lem D :=
  rewrite (type_read _ _ _ D); destruct D as [n g arr v V]; destruct V; cbn [bind kind real_at at_ nth_error left_of top_of zoom_of value_of_view];
  first [reflexivity | apply param_answers; assumption | apply number_answers; assumption | idtac].
Lemma zoom_read arr page v : destination arr page v -> answers (get_zoom arr) (zoom_of v).
Proof. intro D. unfold get_zoom. getter tt D. Qed.
Lemma top_read arr page v : destination arr page v -> answers (get_top arr) (top_of v).
Proof. intro D. unfold get_top. getter tt D. Qed.
Lemma left_read arr page v : destination arr page v -> kind v <> TFitBV -> answers (get_left arr) (left_of v).
Proof. intros D N. unfold get_left. getter tt D. exfalso. apply N. reflexivity. Qed.
Lemma dvalue_read arr page v : destination arr page v -> kind v <> TFitBV -> answers (get_dvalue arr) (value_of_view v).
Proof. intros D N. unfold get_dvalue. getter tt D. exfalso. apply N. reflexivity. Qed.
Lemma rect_read arr page l b r t : destination arr page (VFitR l b r t) ->
  exists q, get_rect arr = Ok q /\ (val (dl q) == l /\ val (db q) == b /\ val (dw q) == r /\ val (dh q) == t)%Q.
Proof.
  intro D. unfold get_rect. rewrite (type_read _ _ _ D). inversion D as [n g arr' v V E1 E2]; subst. inversion V; subst.
  cbn [bind kind real_at at_ nth_error].
  repeat match goal with [ H : number_is ?o ?q |- context [get_real ?o] ] =>
    let a := fresh "a" in let E := fresh "E" in let F := fresh "F" in
    destruct (get_real_is o q H) as (a & E & F); rewrite E; cbn [bind]; clear H end.
  eexists. split; [reflexivity|]. cbn [dl db dw dh]. tauto.
Qed.

(** ** Pointers *)
Lemma read_in h l k d : read h l = Some (ODict d) -> read h (In l k) = dict_get k d.
Proof. intro E. cbn [read]. rewrite E. reflexivity. Qed.
Lemma find_at h l k d o : read h l = Some (ODict d) -> entry_is h d k o -> exists m, find_loc h l k = Some m /\ read h m = Some o.
Proof.
  intros R (e & G & V). unfold find_loc. rewrite (read_in _ _ _ _ R), G. destruct V as [o N|n g o E].
  - destruct o; try (eexists; split; [reflexivity|]; rewrite (read_in _ _ _ _ R); exact G). exfalso. eapply N. reflexivity.
  - rewrite E. eexists. split; [reflexivity|]. exact E.
Qed.
Lemma find_none h l k d : read h l = Some (ODict d) -> absent d k -> find_loc h l k = None.
Proof. intros R A. unfold find_loc. rewrite (read_in _ _ _ _ R), A. reflexivity. Qed.
Lemma resolve_found h l o arr : read h l = Some o -> found_dest h o arr -> exists m, resolve h (Some l) = Ok m /\ array_at h m = Ok arr.
Proof.
  intros R F. unfold resolve. rewrite R. destruct F as [arr|d arr E].
  - eexists. split; [reflexivity|]. unfold array_at. rewrite R. reflexivity.
  - destruct (find_at _ _ _ _ _ R E) as (m & -> & Rm). unfold array_at. rewrite Rm. cbn [bind]. eexists. split; [reflexivity|]. rewrite Rm. reflexivity.
Qed.
Lemma create_named h cat c names (tree : list Z -> obj -> Prop) l o arr : h cat = Some (ODict c) ->
  (forall s v, tree s v -> exists f m, names = Some f /\ f s = Some m /\ read h m = Some v) ->
  read h l = Some o -> named_dest h c tree o arr -> exists m, create h cat names l = Ok m /\ array_at h m = Ok arr.
Proof.
  intros C T R N. unfold create. rewrite R. destruct N as [arr|x s o arr TS F|n d o arr E1 E2 F].
  - eexists. split; [reflexivity|]. unfold array_at. rewrite R. reflexivity.
  - destruct (T _ _ TS) as (f & m & -> & FS & RM). rewrite FS. apply resolve_found with (o := o); assumption.
  - destruct (find_at h (At cat) _ c _ C E1) as (m & -> & Rm). unfold dict_of. rewrite Rm. cbn [bind].
    destruct (find_at _ _ _ _ _ Rm E2) as (m2 & -> & Rm2). apply resolve_found with (o := o); assumption.
Qed.

(** ** Exclusive entries *)
Lemma has_key_absent {A} k (d : list (list Z * A)) : has_key k d = false <-> dict_get k d = None.
Proof. unfold has_key. destruct (dict_get k d); split; congruence. Qed.
(** No condition on the order of the keys *)
Lemma get_add_other {A} k (v : A) q d : beq q k = false -> dict_get q (dict_add k v d) = dict_get q d.
Proof.
  intro N. induction d as [|[k' v'] d IH]; cbn [dict_add dict_get].
  - rewrite N. reflexivity.
  - destruct (beq k k') eqn:E; cbn [dict_get].
    + apply beq_eq in E. subst k'. rewrite N. reflexivity.
    + destruct (bytes_lt k k'); cbn [dict_get]; [rewrite N; reflexivity|]. rewrite IH. reflexivity.
Qed.
Lemma get_add_same {A} k (v : A) d : dict_get k (dict_add k v d) = Some v.
Proof.
  induction d as [|[k' v'] d IH]; cbn [dict_add dict_get]; [rewrite beq_refl; reflexivity|].
  destruct (beq k k') eqn:E; cbn [dict_get].
  - rewrite E. reflexivity.
  - destruct (bytes_lt k k'); cbn [dict_get]; [rewrite beq_refl; reflexivity|]. rewrite E. exact IH.
Qed.
Lemma add_dest_inv h r d h' : add_dest h r d = Ok h' ->
  exists arr, array_at h d = Ok arr /\ (arr = [] /\ h' = h \/
    exists e, h r = Some (ODict e) /\ absent e (bs "A") /\ h' = PageModel.set r (Some (ODict (add_key (bs "Dest") (OArr arr) e))) h).
Proof.
  unfold add_dest. intro E. apply bind_ok in E. destruct E as (arr & A & E). exists arr. split; [exact A|]. destruct arr as [|o arr].
  - left. apply ok_inj in E. auto.
  - right. apply bind_ok in E. destruct E as (e & D & E). destruct (has_key (bs "A") e) eqn:K; [discriminate E|].
    unfold set_key in E. rewrite D in E. cbn [bind] in E. apply ok_inj in E. exists e. split; [|split; [apply has_key_absent, K|auto]].
    unfold dict_at in D. destruct (h r) as [[]|]; try discriminate D. apply ok_inj in D. subst. reflexivity.
Qed.
Lemma add_action_inv h r a h' : add_action h r a = Ok h' ->
  exists v e, read h a = Some v /\ h r = Some (ODict e) /\ absent e (bs "Dest") /\ h' = PageModel.set r (Some (ODict (add_key (bs "A") v e))) h.
Proof.
  unfold add_action. intro E. destruct (read h a) as [v|] eqn:R; [|discriminate E]. cbn [bind] in E. exists v.
  apply bind_ok in E. destruct E as (e & D & E). exists e. destruct (has_key (bs "Dest") e) eqn:K; [discriminate E|].
  unfold set_key in E. rewrite D in E. cbn [bind] in E. apply ok_inj in E. split; [reflexivity|]. split; [|split; [apply has_key_absent, K|auto]].
  unfold dict_at in D. destruct (h r) as [[]|]; try discriminate D. apply ok_inj in D. subst. reflexivity.
Qed.
Lemma add_dest_exclusive h r d h' : add_dest h r d = Ok h' -> forall q, exclusive h q -> exclusive h' q.
Proof.
  intros E q X. destruct (add_dest_inv _ _ _ _ E) as (arr & _ & [[_ ->]|(e & R & A & ->)]); [exact X|].
  intros f F. unfold PageModel.set in F. destruct (ref_eqb q r); [|apply X, F]. injection F as <-. right. unfold absent, add_key.
  rewrite get_add_other by reflexivity. exact A.
Qed.
Lemma add_action_exclusive h r d h' : add_action h r d = Ok h' -> forall q, exclusive h q -> exclusive h' q.
Proof.
  intros E q X. destruct (add_action_inv _ _ _ _ E) as (v & e & _ & R & A & ->).
  intros f F. unfold PageModel.set in F. destruct (ref_eqb q r); [|apply X, F]. injection F as <-. left. unfold absent, add_key.
  rewrite get_add_other by reflexivity. exact A.
Qed.
(** Calls on outline items; one that raises changes nothing *)
Inductive call := CDest (d : loc) | CAction (a : loc).
Definition do_call (c : ref * call) (h : heap) : heap :=
  let r := match snd c with CDest d => do x <- set_dest h (fresh (fst c)) d; Ok (fst x) | CAction a => do x <- item_set_action h (fresh (fst c)) a; Ok (fst x) end in
  match r with Ok h' => h' | _ => h end.
Lemma call_exclusive c h q : exclusive h q -> exclusive (do_call c h) q.
Proof.
  intro X. destruct c as [r [d|a]]; unfold do_call; cbn [fst snd]; unfold set_dest, item_set_action; cbn [hr fresh].
  - destruct (add_dest h r d) as [h'| | |] eqn:E; cbn [bind fst]; auto. eapply add_dest_exclusive; eauto.
  - destruct (add_action h r a) as [h'| | |] eqn:E; cbn [bind fst]; auto. eapply add_action_exclusive; eauto.
Qed.
Lemma calls_exclusive cs : forall h q, exclusive h q -> exclusive (fold_left (fun h c => do_call c h) cs h) q.
Proof. induction cs as [|c cs IH]; intros h q X; [exact X|]. cbn [fold_left]. apply IH, call_exclusive, X. Qed.

(** ** What is read back *)
Lemma find_set h r k v e : (forall n g, v <> ORef n g) ->
  find_loc (PageModel.set r (Some (ODict (add_key k v e))) h) (At r) k = Some (In (At r) k) /\
  read (PageModel.set r (Some (ODict (add_key k v e))) h) (In (At r) k) = Some v.
Proof.
  intro N. assert (R : read (PageModel.set r (Some (ODict (add_key k v e))) h) (In (At r) k) = Some v).
  { cbn [read]. rewrite set_same. unfold get_key, add_key. apply get_add_same. }
  split; [|exact R]. unfold find_loc. rewrite R. destruct v; try reflexivity. exfalso. eapply N. reflexivity.
Qed.
Lemma dest_kept h o d h' o' arr : set_dest h o d = Ok (h', o') -> array_at h d = Ok arr -> arr <> [] ->
  exists l, (forall cat names, exists p, item_get_dest h' cat names (fresh (hr o)) = Ok (Some l, p)) /\
            (exists p, link_get_dest h' (fresh (hr o)) = Ok (Some l, p)) /\ array_at h' l = Ok arr.
Proof.
  unfold set_dest. intros E A N. apply bind_ok in E. destruct E as (h1 & E & F). apply ok_inj in F. injection F as -> <-.
  destruct (add_dest_inv _ _ _ _ E) as (arr' & A' & [[-> ->]|(e & R & AA & ->)]).
  - rewrite A in A'. apply ok_inj in A'. congruence.
  - assert (arr' = arr) by (rewrite A in A'; apply ok_inj in A'; congruence). subst arr'.
    destruct (find_set h (hr o) (bs "Dest") (OArr arr) e ltac:(discriminate)) as (F & RD).
    set (h1 := PageModel.set _ _ h) in *.
    assert (D : dict_at h1 (hr o) = Ok (add_key (bs "Dest") (OArr arr) e)) by (unfold dict_at, h1; rewrite set_same; reflexivity).
    assert (AR : array_at h1 (In (At (hr o)) (bs "Dest")) = Ok arr) by (unfold array_at; rewrite RD; reflexivity).
    exists (In (At (hr o)) (bs "Dest")). split; [|split; [|exact AR]].
    + intros cat names. unfold item_get_dest. cbn [hdest fresh hr]. rewrite D. cbn [bind]. rewrite F. unfold create. rewrite RD. cbn [bind]. eexists. reflexivity.
    + unfold link_get_dest. cbn [hdest fresh hr]. rewrite D. cbn [bind]. rewrite F, AR. cbn [bind]. eexists. reflexivity.
Qed.
(** An action: a dictionary whose kind is a name *)
Definition is_action (o : obj) (n : list Z) : Prop := exists d, o = ODict d /\ dict_get (bs "S") d = Some (OName n).
Lemma item_action_kept h o a h' o' v n : item_set_action h o a = Ok (h', o') -> read h a = Some v -> is_action v n ->
  exists l p, get_action h' (fresh (hr o)) = Ok (Some l, p) /\ read h' l = Some v.
Proof.
  unfold item_set_action. intros E A (d & -> & S). apply bind_ok in E. destruct E as (h1 & E & F). apply ok_inj in F. injection F as -> <-.
  destruct (add_action_inv _ _ _ _ E) as (v' & e & A' & R & AA & ->). rewrite A in A'. injection A' as <-.
  destruct (find_set h (hr o) (bs "A") (ODict d) e ltac:(discriminate)) as (F & RD).
  set (h1 := PageModel.set _ _ h) in *.
  assert (D : dict_at h1 (hr o) = Ok (add_key (bs "A") (ODict d) e)) by (unfold dict_at, h1; rewrite set_same; reflexivity).
  unfold get_action. cbn [hact fresh hr]. rewrite D. cbn [bind]. rewrite F. unfold action_type, dict_of. rewrite RD. cbn [bind].
  unfold dict_find, get_key. rewrite S. cbn [bind]. eexists _, _. split; [reflexivity|]. exact RD.
Qed.
Lemma link_action_kept h o r h' o' v n : link_set_action h o (At r) = Ok (h', o') -> h r = Some v -> is_action v n -> r <> hr o ->
  exists p, get_action h' (fresh (hr o)) = Ok (Some (At r), p) /\ read h' (At r) = Some v.
Proof.
  unfold link_set_action. intros E A (d & -> & S) N. apply bind_ok in E. destruct E as (h1 & E & F). apply ok_inj in F. injection F as -> <-.
  unfold set_key in E. apply bind_ok in E. destruct E as (e & D & E). apply ok_inj in E. subst h'.
  set (h1 := PageModel.set _ _ h).
  assert (RR : h1 r = Some (ODict d)) by (unfold h1; rewrite set_other by exact N; exact A).
  unfold get_action. cbn [hact fresh hr]. unfold dict_at. replace (h1 (hr o)) with (Some (ODict (add_key (bs "A") (to_ref r) e))) by (symmetry; apply set_same).
  cbn [bind]. unfold find_loc, read. replace (h1 (hr o)) with (Some (ODict (add_key (bs "A") (to_ref r) e))) by (symmetry; apply set_same).
  unfold get_key, add_key. rewrite get_add_same. destruct r as [rn rg]. cbn [to_ref fst snd]. rewrite RR.
  unfold action_type, dict_of, read. rewrite RR. cbn [bind]. unfold dict_find, get_key. rewrite S. cbn [bind]. eexists. split; reflexivity.
Qed.
Lemma nothing_else h o d h' o' : set_dest h o d = Ok (h', o') \/ item_set_action h o d = Ok (h', o') \/ link_set_action h o d = Ok (h', o') ->
  (forall q, q <> hr o -> h' q = h q) /\
  (forall e k, h (hr o) = Some (ODict e) -> k <> bs "Dest" -> k <> bs "A" -> exists e', h' (hr o) = Some (ODict e') /\ dict_get k e' = dict_get k e).
Proof.
  assert (G : forall kk v e0, kk = bs "Dest" \/ kk = bs "A" -> h (hr o) = Some (ODict e0) -> h' = PageModel.set (hr o) (Some (ODict (add_key kk v e0))) h ->
    (forall q, q <> hr o -> h' q = h q) /\
    (forall e k, h (hr o) = Some (ODict e) -> k <> bs "Dest" -> k <> bs "A" -> exists e', h' (hr o) = Some (ODict e') /\ dict_get k e' = dict_get k e)).
  { intros kk v e0 KK R ->. split.
    - intros q N. apply set_other, N.
    - intros e k E1 N1 N2. rewrite set_same. eexists. split; [reflexivity|]. rewrite R in E1. injection E1 as <-. unfold add_key.
      apply get_add_other. destruct (beq k kk) eqn:B; [|reflexivity]. apply beq_eq in B. subst kk. destruct KK; congruence. }
  intros [E|[E|E]].
  - unfold set_dest in E. apply bind_ok in E. destruct E as (h1 & E & F). apply ok_inj in F. injection F as -> <-.
    destruct (add_dest_inv _ _ _ _ E) as (arr & _ & [[_ ->]|(e & R & A & H1)]).
    + split; [reflexivity|]. intros e k E1 _ _. exists e. auto.
    + apply (G (bs "Dest") (OArr arr) e); auto.
  - unfold item_set_action in E. apply bind_ok in E. destruct E as (h1 & E & F). apply ok_inj in F. injection F as -> <-.
    destruct (add_action_inv _ _ _ _ E) as (v & e & _ & R & A & H1). apply (G (bs "A") v e); auto.
  - unfold link_set_action in E. apply bind_ok in E. destruct E as (h1 & E & F). apply ok_inj in F. injection F as -> <-.
    unfold set_key in E. apply bind_ok in E. destruct E as (e & D & E). apply ok_inj in E.
    refine (G (bs "A") _ e (or_intror eq_refl) _ (eq_sym E)). unfold dict_at in D. destruct (h (hr o)) as [[]|]; try discriminate D. apply ok_inj in D. subst. reflexivity.
Qed.

(** ** Kinds and texts of actions *)
Lemma new_kind t n : List.In (t, n) kinds_of_actions -> t <> 19 -> forall h r o, new_action t = Ok o -> h r = Some o ->
  entry_is h (match o with ODict d => d | _ => [] end) (bs "S") (OName (bs n)) /\ action_type h (At r) = Ok t.
Proof.
  intros K N h r o E R. cbn [List.In kinds_of_actions] in K.
  repeat (destruct K as [K|K]; [injection K as <- <-; try (exfalso; apply N; reflexivity); apply ok_inj in E; subst o;
    (split; [eexists; split; [reflexivity|]; constructor; discriminate|unfold action_type, dict_of, read; rewrite R; reflexivity])|]).
  destruct K.
Qed.
Lemma new_ok t n : List.In (t, n) kinds_of_actions -> t <> 19 -> exists o, new_action t = Ok o.
Proof.
  intros K N. cbn [List.In kinds_of_actions] in K.
  repeat (destruct K as [K|K]; [injection K as <- <-; try (exfalso; apply N; reflexivity); eexists; reflexivity|]). destruct K.
Qed.
Lemma kind_read h l d n t : read h l = Some (ODict d) -> entry_is h d (bs "S") (OName (bs n)) -> List.In (t, n) kinds_of_actions -> t <> 19 ->
  action_type h l = Ok t.
Proof.
  intros R (e & G & V) K N. unfold action_type, dict_of. rewrite R. cbn [bind].
  assert (F : dict_find h (bs "S") d = Some (OName (bs n))).
  { unfold dict_find, get_key. rewrite G. inversion V; subst; auto. }
  rewrite F. clear F G V e. cbn [List.In kinds_of_actions] in K.
  repeat (destruct K as [K|K]; [injection K as <- <-; try (exfalso; apply N; reflexivity); reflexivity|]). destruct K.
Qed.
Lemma text_kept h r d k s : h r = Some (ODict d) -> exists h', set_text h (At r) k s = Ok h' /\ get_text h' (At r) k = Ok s /\
  (k = bs "URI" -> has_uri h' (At r) = Ok true) /\ (k = bs "JS" -> has_script h' (At r) = Ok true) /\
  (forall q, q <> r -> h' q = h q) /\ exists d', h' r = Some (ODict d') /\ forall j, j <> k -> dict_get j d' = dict_get j d.
Proof.
  intro R. unfold set_text, dict_of. cbn [read]. rewrite R. cbn [bind write]. eexists. split; [reflexivity|].
  set (h1 := PageModel.set _ _ h). assert (R1 : h1 r = Some (ODict (add_key k (OStr false s) d))) by apply set_same.
  assert (G : get_key k (add_key k (OStr false s) d) = Some (OStr false s)) by apply get_add_same.
  split; [|split; [|split; [|split]]].
  - unfold get_text, dict_of, read. rewrite R1. cbn [bind]. unfold dict_find. rewrite G. reflexivity.
  - intros ->. unfold has_uri, dict_of, read. rewrite R1. cbn [bind]. unfold dict_find. rewrite G. reflexivity.
  - intros ->. unfold has_script, dict_of, read. rewrite R1. cbn [bind]. unfold has_key. unfold get_key in G. rewrite G. reflexivity.
  - intros q N. apply set_other, N.
  - eexists. split; [exact R1|]. intros j N. apply get_add_other. destruct (beq j k) eqn:B; [|reflexivity]. apply beq_eq in B. congruence.
Qed.
