(** Destinations and actions: C125 and C126. *)
From Coq Require Import String QArith.
From Verif Require Import Base ChainProofs TokModel DictProofs OwnModel ListModel PageModel PageProofs LinkSpec LinkModel LinkProofs.
Local Open Scope Z_scope.

(** ** C125: destinations *)

(** The constructors write the destination that they are called for *)
Theorem C125_made : forall page,
  (forall f v, fit_view f = Some v -> destination (dest_fit page f) page v) /\
  (forall f x v, value_view f (val x) = Some v -> exists arr, dest_value page f x = Ok arr /\ destination arr page v) /\
  (forall f x, value_view f (val x) = None -> dest_value page f x = Err EInvalidKey) /\
  (forall l t z, destination (dest_xyz page l t z) page (VXYZ (Some (val l)) (Some (val t)) (Some (val z)))) /\
  (forall r, destination (dest_rect page r) page (VFitR (val (dl r)) (val (db r)) (val (dl r) + val (dw r))%Q (val (db r) + val (dh r))%Q)).
Proof.
  intro page. repeat split; intros.
  - apply fit_made; assumption.
  - apply value_made; assumption.
  - apply value_refused; assumption.
  - apply xyz_made.
  - apply rect_made.
Qed.
Print Assumptions C125_made.
Example C125_case : destination (dest_rect (7, 0) (mk_drect (105, 1%nat) (20, 0%nat) (100, 0%nat) (255, 1%nat))) (7, 0) (VFitR (21 # 2) 20 (221 # 2) (91 # 2))
  /\ dest_rect (7, 0) (mk_drect (105, 1%nat) (20, 0%nat) (100, 0%nat) (255, 1%nat)) =
     [ORef 7 0; OName (bs "FitR"); OReal 105 1; OReal 20 0; OReal 1105 1; OReal 455 1].
Proof. split; [|vm_compute; reflexivity]. repeat constructor. Qed.

(** The getters give the page, the kind and the parameters of every destination; a parameter that is null raises. Missing: the left edge
    and the value of FitBV, and the rectangle *)
Theorem C125_read_partial : forall arr page v, destination arr page v ->
  get_page_ref arr = Ok (Some page) /\ dest_type arr = Ok (kind v) /\
  answers (get_top arr) (top_of v) /\ answers (get_zoom arr) (zoom_of v) /\
  (kind v <> TFitBV -> answers (get_left arr) (left_of v) /\ answers (get_dvalue arr) (value_of_view v)).
Proof.
  intros arr page v D. split; [eapply page_read, D|]. split; [eapply type_read, D|]. split; [eapply top_read, D|]. split; [eapply zoom_read, D|].
  intro N. split; [eapply left_read|eapply dvalue_read]; eassumption.
Qed.
Print Assumptions C125_read_partial.
Example C125_read_case : get_left (dest_xyz (7, 0) (15, 1%nat) (700, 0%nat) (0, 0%nat)) = Ok (15, 1%nat)
  /\ get_top (dest_xyz (7, 0) (15, 1%nat) (700, 0%nat) (0, 0%nat)) = Ok (700, 0%nat)
  /\ get_zoom [ORef 7 0; OName (bs "FitH"); ONum 3] = Err EWrongDestinationType
  /\ get_left [ORef 7 0; OName (bs "XYZ"); ONull; ONum 3; ONum 1] = Err EInvalidDataType.
Proof. repeat split; vm_compute; reflexivity. Qed.

(** GetRect takes the right and the top edge for the width and the height: the rectangle is the given one only at the origin *)
Theorem C125_rect_refuted : forall page r, exists q, get_rect (dest_rect page r) = Ok q /\
  (val (dl q) == val (dl r) /\ val (db q) == val (db r))%Q /\
  ((val (dw q) == val (dw r))%Q <-> (val (dl r) == 0)%Q) /\ ((val (dh q) == val (dh r))%Q <-> (val (db r) == 0)%Q).
Proof.
  intros page r. destruct (rect_read _ _ _ _ _ _ (rect_made page r)) as (q & E & A & B & C & D). exists q.
  split; [exact E|]. split; [split; assumption|]. rewrite C, D. split; split; intro H.
  - rewrite <- (Qplus_inj_r _ _ (val (dw r))), H. ring.
  - rewrite H. ring.
  - rewrite <- (Qplus_inj_r _ _ (val (dh r))), H. ring.
  - rewrite H. ring.
Qed.
Print Assumptions C125_rect_refuted.
Example C125_rect_case : get_rect (dest_rect (7, 0) (mk_drect (10, 0%nat) (20, 0%nat) (100, 0%nat) (50, 0%nat)))
  = Ok (mk_drect (10, 0%nat) (20, 0%nat) (110, 0%nat) (70, 0%nat)).
Proof. vm_compute. reflexivity. Qed.
(** The value of a FitBV destination is not read *)
Theorem C125_fitbv_refuted : forall page x, exists arr, dest_value page FFitBV x = Ok arr /\ destination arr page (VFitBV (Some (val x))) /\
  get_left arr = Err EWrongDestinationType /\ get_dvalue arr = Err EWrongDestinationType.
Proof.
  intros page x. destruct (value_made page FFitBV x _ eq_refl) as (arr & E & D). exists arr. split; [exact E|]. split; [exact D|].
  split; [unfold get_left|unfold get_dvalue]; rewrite (type_read _ _ _ D); reflexivity.
Qed.
Print Assumptions C125_fitbv_refuted.
Example C125_fitbv_case : exists arr, dest_value (7, 0) FFitBV (12, 0%nat) = Ok arr /\ arr = [ORef 7 0; OName (bs "FitBV"); OReal 12 0]
  /\ get_left arr = Err EWrongDestinationType.
Proof. eexists. split; [reflexivity|]. split; reflexivity. Qed.
(** A destination made of a page and a fit that needs a value is no destination, and nothing is raised *)
Theorem C125_fit_refuted : forall page f, fit_view f = None -> dest_type (dest_fit page f) = Ok TUnknown /\ forall p v, ~ destination (dest_fit page f) p v.
Proof.
  intros page f E. split; [destruct f; try discriminate E; reflexivity|]. intros p v D. inversion D as [n g arr w V E1 E2 E3]. subst.
  destruct f; try discriminate E; inversion V.
Qed.
Print Assumptions C125_fit_refuted.
Example C125_fit_case : dest_fit (7, 0) FFitH = [ORef 7 0; OName []].
Proof. reflexivity. Qed.
(** An array with the page alone has no kind: GetType raises *)
Theorem C125_short_refuted : forall o, dest_type [o] = Err EValueOutOfRange.
Proof. reflexivity. Qed.
Print Assumptions C125_short_refuted.
Example C125_short_case : dest_type [ORef 7 0] = Err EValueOutOfRange /\ dest_type [] = Ok TUnknown.
Proof. split; reflexivity. Qed.

(** Destinations are found by their names: [tree] are the names of the document, which [names] finds *)
Theorem C125_named : forall h cat c names (tree : list Z -> obj -> Prop) l o arr, h cat = Some (ODict c) ->
  (forall s v, tree s v -> exists f m, names = Some f /\ f s = Some m /\ read h m = Some v) ->
  read h l = Some o -> named_dest h c tree o arr -> exists m, create h cat names l = Ok m /\ array_at h m = Ok arr.
Proof. exact create_named. Qed.
Print Assumptions C125_named.
Definition ex_heap : heap := fun r =>
  if ref_eqb r (1, 0) then Some (ODict [(bs "Dests", ORef 2 0)])
  else if ref_eqb r (2, 0) then Some (ODict [(bs "one", ODict [(bs "D", ORef 3 0)])])
  else if ref_eqb r (3, 0) then Some (OArr [ORef 7 0; OName (bs "Fit")])
  else if ref_eqb r (4, 0) then Some (ODict [(bs "Dest", OName (bs "one"))])
  else if ref_eqb r (5, 0) then Some (ODict [(bs "S", OName (bs "URI")); (bs "Type", OName (bs "Action"))])
  else if ref_eqb r (6, 0) then Some (ODict [])
  else if ref_eqb r (8, 0) then Some (OArr [])
  else None.
Example C125_named_case : create ex_heap (1, 0) None (In (At (4, 0)) (bs "Dest")) = Ok (At (3, 0)).
Proof. vm_compute. reflexivity. Qed.

(** ** C126: actions, and what has destinations and actions *)

(** No calls give an outline item both a destination and an action *)
Theorem C126_exclusive : forall cs h q, exclusive h q -> exclusive (fold_left (fun h c => do_call c h) cs h) q.
Proof. exact calls_exclusive. Qed.
Print Assumptions C126_exclusive.
Example C126_case : let h := fold_left (fun h c => do_call c h) [((6, 0), CDest (At (3, 0))); ((6, 0), CAction (At (5, 0)))] ex_heap in
  h (6, 0) = Some (ODict [(bs "Dest", OArr [ORef 7 0; OName (bs "Fit")])]).
Proof. vm_compute. reflexivity. Qed.
(** The destination and the action that are set are read back from the document, and nothing else changes *)
Theorem C126_kept : forall h o l h' o',
  (forall arr, set_dest h o l = Ok (h', o') -> array_at h l = Ok arr -> arr <> [] ->
    exists m, (forall cat names, exists p, item_get_dest h' cat names (fresh (hr o)) = Ok (Some m, p)) /\
              (exists p, link_get_dest h' (fresh (hr o)) = Ok (Some m, p)) /\ array_at h' m = Ok arr) /\
  (forall v n, item_set_action h o l = Ok (h', o') -> read h l = Some v -> is_action v n ->
    exists m p, get_action h' (fresh (hr o)) = Ok (Some m, p) /\ read h' m = Some v) /\
  (forall r v n, l = At r -> link_set_action h o l = Ok (h', o') -> h r = Some v -> is_action v n -> r <> hr o ->
    exists p, get_action h' (fresh (hr o)) = Ok (Some (At r), p) /\ read h' (At r) = Some v) /\
  (set_dest h o l = Ok (h', o') \/ item_set_action h o l = Ok (h', o') \/ link_set_action h o l = Ok (h', o') ->
    (forall q, q <> hr o -> h' q = h q) /\
    (forall e k, h (hr o) = Some (ODict e) -> k <> bs "Dest" -> k <> bs "A" -> exists e', h' (hr o) = Some (ODict e') /\ dict_get k e' = dict_get k e)).
Proof.
  intros h o l h' o'. split; [|split; [|split]].
  - intros. eapply dest_kept; eassumption.
  - intros. eapply item_action_kept; eassumption.
  - intros r v n -> E. intros. eapply link_action_kept; eassumption.
  - apply nothing_else.
Qed.
Print Assumptions C126_kept.
Example C126_kept_case : (do x <- link_set_action ex_heap (fresh (6, 0)) (At (5, 0)); get_action (fst x) (fresh (6, 0)))
  = Ok (Some (At (5, 0)), mk_holder (6, 0) None (Some (At (5, 0)))).
Proof. vm_compute. reflexivity. Qed.
(** The kinds of actions have the names of the standard, and are read by them *)
Theorem C126_kinds_partial : forall t n, List.In (t, n) kinds_of_actions -> t <> 19 ->
  (exists o, new_action t = Ok o) /\
  (forall h r o, new_action t = Ok o -> h r = Some o ->
    entry_is h (match o with ODict d => d | _ => [] end) (bs "S") (OName (bs n)) /\ action_type h (At r) = Ok t) /\
  (forall h l d, read h l = Some (ODict d) -> entry_is h d (bs "S") (OName (bs n)) -> action_type h l = Ok t).
Proof.
  intros t n K N. split; [eapply new_ok; eassumption|]. split.
  - intros. eapply new_kind; eassumption.
  - intros. eapply kind_read; eassumption.
Qed.
Print Assumptions C126_kinds_partial.
Example C126_kinds_case : new_action 14 = Ok (ODict [(bs "S", OName (bs "JavaScript")); (bs "Type", OName (bs "Action"))])
  /\ action_type ex_heap (At (5, 0)) = Ok 6.
Proof. split; vm_compute; reflexivity. Qed.
(** The last kind has no name in the table: its constructor calls strlen on a null pointer *)
Theorem C126_kinds_refuted : exists n, List.In (19, n) kinds_of_actions /\ new_action 19 = UB.
Proof. exists "RichMediaExecute"%string. split; [cbn; tauto|reflexivity]. Qed.
Print Assumptions C126_kinds_refuted.
(** The address or the script of an action is kept *)
Theorem C126_text : forall h r d k s, h r = Some (ODict d) -> exists h', set_text h (At r) k s = Ok h' /\ get_text h' (At r) k = Ok s /\
  (k = bs "URI" -> has_uri h' (At r) = Ok true) /\ (k = bs "JS" -> has_script h' (At r) = Ok true) /\
  (forall q, q <> r -> h' q = h q) /\ exists d', h' r = Some (ODict d') /\ forall j, j <> k -> dict_get j d' = dict_get j d.
Proof. exact text_kept. Qed.
Print Assumptions C126_text.
Example C126_text_case : (do h <- set_text ex_heap (At (5, 0)) (bs "URI") (bs "http://a.b/"); get_text h (At (5, 0)) (bs "URI")) = Ok (bs "http://a.b/").
Proof. vm_compute. reflexivity. Qed.
(** A link can get both a destination and an action *)
Theorem C126_link_refuted : exists h1 o1 h2 o2, exclusive ex_heap (6, 0) /\ set_dest ex_heap (fresh (6, 0)) (At (3, 0)) = Ok (h1, o1) /\
  link_set_action h1 o1 (At (5, 0)) = Ok (h2, o2) /\ ~ exclusive h2 (6, 0).
Proof.
  eexists _, _, _, _. split; [intros d E; injection E as <-; left; reflexivity|]. split; [reflexivity|]. split; [reflexivity|].
  intro X. destruct (X _ eq_refl) as [H|H]; vm_compute in H; discriminate H.
Qed.
Print Assumptions C126_link_refuted.
(** An empty destination replaces the one that the item gives, but not the one in the document *)
Theorem C126_empty_refuted : exists h1 o1 h2 o2, set_dest ex_heap (fresh (6, 0)) (At (3, 0)) = Ok (h1, o1) /\ set_dest h1 o1 (At (8, 0)) = Ok (h2, o2) /\
  (exists p, link_get_dest h2 o2 = Ok (Some (At (8, 0)), p)) /\ array_at h2 (At (8, 0)) = Ok [] /\
  (exists p l, link_get_dest h2 (fresh (6, 0)) = Ok (Some l, p) /\ array_at h2 l = Ok [ORef 7 0; OName (bs "Fit")]).
Proof.
  eexists _, _, _, _. split; [reflexivity|]. split; [reflexivity|]. split; [eexists; reflexivity|]. split; [reflexivity|].
  eexists _, _. split; reflexivity.
Qed.
Print Assumptions C126_empty_refuted.
(** An outline item writes a copy of its action: what is set later is given by the item, but is not in the document *)
Theorem C126_copy_refuted : exists h1 o1 h2 l p, item_set_action ex_heap (fresh (6, 0)) (At (5, 0)) = Ok (h1, o1) /\
  set_text h1 (At (5, 0)) (bs "URI") (bs "http://a.b/") = Ok h2 /\
  get_action h2 o1 = Ok (Some (At (5, 0)), o1) /\ get_text h2 (At (5, 0)) (bs "URI") = Ok (bs "http://a.b/") /\
  get_action h2 (fresh (6, 0)) = Ok (Some l, p) /\ get_text h2 l (bs "URI") = Err ENoObject.
Proof. eexists _, _, _, _, _. split; [reflexivity|]. split; [reflexivity|]. split; [reflexivity|]. split; [reflexivity|]. split; reflexivity. Qed.
Print Assumptions C126_copy_refuted.
(** The destination of a link given by its name is not read, though that of an outline item is *)
Theorem C126_named_refuted : named_dest ex_heap [(bs "Dests", ORef 2 0)] (fun _ _ => False) (OName (bs "one")) [ORef 7 0; OName (bs "Fit")] /\
  (exists p, item_get_dest ex_heap (1, 0) None (fresh (4, 0)) = Ok (Some (At (3, 0)), p)) /\ link_get_dest ex_heap (fresh (4, 0)) = Err EInvalidDataType.
Proof.
  split; [|split; [eexists; reflexivity|reflexivity]].
  eapply NName with (d := [(bs "one", ODict [(bs "D", ORef 3 0)])]).
  - eexists. split; [reflexivity|]. constructor. reflexivity.
  - eexists. split; [reflexivity|]. constructor. discriminate.
  - constructor. eexists. split; [reflexivity|]. constructor. reflexivity.
Qed.
Print Assumptions C126_named_refuted.
