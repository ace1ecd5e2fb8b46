(** C144: forms made of pages *)
From Coq Require Import String QArith Lqa.
From Verif Require Import Base ChainProofs TokModel OwnModel OwnSpec OwnProofs ListModel PageModel PageProofs RectModel LinkSpec AnnotSpec.
From Verif Require Import TokProofs CMapSpec ContentsModel ContentsSpec BoxSpec BoxModel BoxProofs.
From Verif Require RectProps.
Local Open Scope Z_scope.

Lemma spans_inside q a b c e u v : spans (rl q) (rb q) (rw q) (rh q) a b c e -> RectProps.inside q u v <-> within a c u /\ within b e v.
Proof.
  intros ((S1 & S2) & (S3 & S4)). rewrite RectProps.inside_iff. unfold within. destruct S1 as [(? & ?)|(? & ?)], S3 as [(? & ?)|(? & ?)]; split; intros; intuition lra.
Qed.
Definition not_nothing (a b c e : Q) : Prop := ~ (a == 0 /\ b == 0 /\ c == 0 /\ e == 0)%Q.
Lemma spans_zero q a b c e : spans (rl q) (rb q) (rw q) (rh q) a b c e -> not_nothing a b c e -> ~ (rl q == 0 /\ rb q == 0 /\ rw q == 0 /\ rh q == 0)%Q.
Proof. intros ((S1 & S2) & (S3 & S4)) N (A & B & C & D). apply N. destruct S1 as [(? & ?)|(? & ?)], S3 as [(? & ?)|(? & ?)]; repeat split; lra. Qed.
Lemma intersect_inside m c u v : ~ (rl c == 0 /\ rb c == 0 /\ rw c == 0 /\ rh c == 0)%Q -> RectProps.inside (intersect m c) u v <-> RectProps.inside m u v /\ RectProps.inside c u v.
Proof. intros N. apply RectProps.C59_intersect_partial, N. Qed.

(** ** C144 *)
(** A form made of a page: its box is what the boxes of the page have in common, the matrix puts it upright at the origin, it has the resources of the
    page, and its stream is the streams of the page. Missing: pages that inherit their resources, turns by more than 360 degrees, and pages without
    contents, whose form keeps its old stream (refuted below); boxes that are only the origin (C59). *)
Theorem C144_fill_partial : forall turn text look sd h st d f (trim : bool) a b c e a' b' c' e' a'' b'' c'' e'' r rs ls,
  exact turn -> media_is look sd a b c e -> crop_is look sd a' b' c' e' -> not_nothing a' b' c' e' ->
  (trim = true -> other_is look (bs "TrimBox") sd a'' b'' c'' e'' /\ ((exists v, entry look sd (bs "TrimBox") v) \/ inherits look (bs "TrimBox") sd None) /\ not_nothing a'' b'' c'' e'') ->
  rotated look sd r -> entry h d (bs "Contents") (OArr (map (fun r => ORef (fst r) (snd r)) rs)) -> Forall2 (leads h st) rs ls ->
  exists n f', (forall fuel, (n <= fuel)%nat -> fill fuel turn text look sd h st d trim f = Ok f') /\
    (exists x y w t, f_bbox f' = [x; y; w + x; t + y]%Q /\
      (forall u v, (x <= u <= x + w)%Q /\ (y <= v <= y + t)%Q <-> within a c u /\ within b e v /\ within a' c' u /\ within b' e' v /\ (trim = true -> within a'' c'' u /\ within b'' e'' v)) /\
      (forall p p', placed x y w t r p p' -> (fst (image (f_matrix f') p) == fst p' /\ snd (image (f_matrix f') p) == snd p')%Q)) /\
    f_stream f' = Some (concat ls) /\ (forall o, dict_get (bs "Resources") d = Some o -> f_res f' = Some o).
Proof.
  intros turn text look sd h st d f trim a b c e a' b' c' e' a'' b'' c'' e'' r rs ls X M C NC T R E L.
  destruct (media_read _ _ _ _ _ _ M) as (n1 & qm & QM & SM). destruct (crop_read _ _ _ _ _ _ C) as (n2 & qc & QC & SC).
  destruct (rotated_read _ _ _ R) as (n3 & QR). destruct (joined_found h st text rs ls L) as (n4 & QL).
  assert (QT : exists n5 box, (forall fuel, (n5 <= fuel)%nat -> (if trim then (do t <- other_box fuel look (bs "TrimBox") sd; Ok (intersect (intersect qm qc) t)) else Ok (intersect qm qc)) = Ok box) /\
    forall u v, RectProps.inside box u v <-> within a c u /\ within b e v /\ within a' c' u /\ within b' e' v /\ (trim = true -> within a'' c'' u /\ within b'' e'' v)).
  { destruct trim.
    - destruct (T eq_refl) as (T1 & T2 & T3). destruct (other_read _ _ _ _ _ _ _ T1 T2) as (n5 & qt & QT & ST). exists n5, (intersect (intersect qm qc) qt).
      split; [intros fuel F; rewrite QT by exact F; reflexivity|]. intros u v.
      rewrite intersect_inside by (eapply spans_zero; eassumption). rewrite intersect_inside by (eapply spans_zero; eassumption).
      rewrite (spans_inside qm _ _ _ _ u v SM), (spans_inside qc _ _ _ _ u v SC), (spans_inside qt _ _ _ _ u v ST). tauto.
    - exists 0%nat, (intersect qm qc). split; [reflexivity|]. intros u v.
      rewrite intersect_inside by (eapply spans_zero; eassumption). rewrite (spans_inside qm _ _ _ _ u v SM), (spans_inside qc _ _ _ _ u v SC). intuition discriminate. }
  destruct QT as (n5 & box & QT & IB).
  assert (B : -360 <= r < 360) by (destruct R as [r I B|I]; lia).
  set (rot := r mod 360). assert (RB : 0 <= rot < 360) by (apply Z.mod_pos_bound; lia).
  eexists (n1 + n2 + n3 + n4 + n5)%nat, (mk_form (turned_rect rot box) (to_array box) (form_matrix turn rot (turned_rect rot box)) _ _). split; [|split; [|split]].
  - intros fuel F. unfold fill. rewrite QM by lia. cbn [bind]. rewrite QC by lia. cbn [bind]. rewrite QT by lia. cbn [bind].
    unfold form_stream. pose proof E as E2. apply dict_find_entry in E2. rewrite E2. assert (HK : has_key (bs "Contents") d = true).
    { unfold has_key. unfold dict_find, get_key in E2. destruct (dict_get (bs "Contents") d); [reflexivity|discriminate]. }
    rewrite HK, QL by lia. cbn [bind]. rewrite QR by lia. cbn [bind]. rewrite turn_cases by exact B. reflexivity.
  - exists (rl box), (rb box), (rw box), (rh box). cbn [f_bbox f_matrix]. split; [reflexivity|]. split; [intros u v; rewrite <- IB, RectProps.inside_iff; reflexivity|].
    intros [u v] p' P. apply matrix_places; [exact X|exact RB|]. assert (MM : rot mod 360 = r mod 360) by (unfold rot; apply Z.mod_mod; lia).
    inversion P; subst; [apply Upright|apply Right|apply Over|apply Left]; congruence.
  - reflexivity.
  - intros o G. cbn [f_res]. unfold get_key. rewrite G. reflexivity.
Qed.
Print Assumptions C144_fill_partial.
(** If each stream ends with white space, the stream of the form has the instructions of the page. *)
Theorem C144_shows_partial : forall l ls, Forall2 ended l ls -> program_text (concat l) (joined (texts (map Some ls))) /\ program_text (concat l) (concat ls).
Proof. intros l ls F. split; [apply ended_joined, F|apply ended_all, F]. Qed.
Print Assumptions C144_shows_partial.
(** A page with one stream has all its bytes in the form *)
Theorem C144_single : forall fuel h st text d r o b, dict_get (bs "Contents") d = Some (ORef (fst r) (snd r)) -> h r = Some o -> (forall l, o <> OArr l) -> st r = Some b ->
  form_stream fuel h st text d = Ok (Some b).
Proof.
  intros fuel h st text d r o b G H N S. unfold form_stream, has_key, dict_find, get_key. rewrite G, <- surjective_pairing, H. destruct o; try (rewrite S; reflexivity). destruct (N _ eq_refl).
Qed.
Print Assumptions C144_single.
(** False: nothing is put between the streams, so two operators become one word *)
Theorem C144_glued_refuted : exists h st rs ls is, Forall2 (leads h st) rs ls /\ program_text is (joined (texts (map Some ls))) /\
  (forall text, joined_streams 1 h st text (map (fun r => ORef (fst r) (snd r)) rs) = Ok (concat ls)) /\ ~ program_text is (concat ls).
Proof.
  exists (fun _ => Some (ODict [])), (fun r => if fst r =? 1 then Some (bs "q") else Some (bs "Q")), [(1, 0); (2, 0)], [bs "q"; bs "Q"], [IOp [] (bs "q"); IOp [] (bs "Q")].
  assert (W : forall n, n = bs "q" \/ n = bs "Q" -> word n).
  { intros n N. split; [destruct N as [-> | ->]; repeat constructor|]. split; [destruct N as [-> | ->]; cbn [length bs]; vm_compute; lia|].
    split; [destruct N as [-> | ->]; vm_compute; intuition discriminate|destruct N as [-> | ->]; vm_compute; intuition discriminate]. }
  split; [|split; [|split]].
  - repeat constructor; econstructor; try reflexivity; intros; discriminate.
  - change (joined (texts (map Some [bs "q"; bs "Q"]))) with (bs "q" ++ [10] ++ bs "Q" ++ []).
    eapply pt_op; [constructor|exists []; split; [reflexivity|]; split; [constructor|]; split; [apply W; left; reflexivity|left; reflexivity]|discriminate|].
    eapply pt_op; [constructor|exists [10]; split; [reflexivity|]; split; [repeat constructor|]; split; [apply W; right; reflexivity|exact Logic.I]|discriminate|]. constructor. constructor.
  - intros text. reflexivity.
  - intros P. inversion P as [|args n t t1 k is V Wt N P'|]; subst. inversion V; subst. destruct Wt as (ws & E & B & _ & S).
    destruct ws as [|x ws].
    + change (concat [bs "q"; bs "Q"]) with [113; 81] in E. change (bs "q") with [113] in E. cbn [app] in E. assert (k = [81]) by congruence. subst k. cbn in S. destruct S as [S|(S & _)]; discriminate S.
    + change (concat [bs "q"; bs "Q"]) with [113; 81] in E. cbn [app] in E. assert (x = 113) by congruence. subst x. inversion B; subst. discriminate.
Qed.
Print Assumptions C144_glued_refuted.
(** False: the form of a page that inherits its resources has none *)
Theorem C144_resources_refuted : forall fuel turn text look sd h st d trim f f', dict_get (bs "Resources") d = None -> f_res f = None -> fill fuel turn text look sd h st d trim f = Ok f' -> f_res f' = None.
Proof.
  intros fuel turn text look sd h st d trim f f' G R F. unfold fill in F. repeat (apply bind_ok in F; destruct F as (? & _ & F)). apply ok_inj in F. subst f'. cbn [f_res]. unfold get_key. rewrite G. exact R.
Qed.
Print Assumptions C144_resources_refuted.
(** False: a form that is filled with a page without contents keeps its old stream *)
Theorem C144_empty_refuted : forall fuel turn text look sd h st d trim f f', dict_get (bs "Contents") d = None -> fill fuel turn text look sd h st d trim f = Ok f' -> f_stream f' = f_stream f.
Proof.
  intros fuel turn text look sd h st d trim f f' G F. unfold fill in F. apply bind_ok in F. destruct F as (m & _ & F). apply bind_ok in F. destruct F as (c & _ & F).
  apply bind_ok in F. destruct F as (box & _ & F). apply bind_ok in F. destruct F as (s & S & F). apply bind_ok in F. destruct F as (rot & _ & F).
  unfold form_stream, has_key in S. rewrite G in S. apply ok_inj in S. subst s. apply ok_inj in F. subst f'. reflexivity.
Qed.
Print Assumptions C144_empty_refuted.
(** False: contents that are a reference to itself are searched for ever *)
Theorem C144_loop_refuted : forall h st text d r fuel, h r = Some (ORef (fst r) (snd r)) -> dict_get (bs "Contents") d = Some (OArr [ORef (fst r) (snd r)]) -> form_stream fuel h st text d = Fuel.
Proof.
  intros h st text d r fuel H G. unfold form_stream, has_key, dict_find, get_key. rewrite G. cbn [joined_streams]. rewrite <- surjective_pairing, loop_runs by exact H. reflexivity.
Qed.
Print Assumptions C144_loop_refuted.
(** False: a page that is turned by a whole turn and 90 degrees is not put at the origin *)
Theorem C144_turn_refuted : forall fuel turn text look sd h st d trim f f', exact turn -> get_rotation fuel look sd = Ok 450 -> fill fuel turn text look sd h st d trim f = Ok f' ->
  exists x y w t, f_bbox f' = [x; y; w + x; t + y]%Q /\
    (forall u v, (fst (image (f_matrix f') (u, v)) == v - x /\ snd (image (f_matrix f') (u, v)) == - u - y)%Q) /\
    ((0 <= x)%Q -> (0 <= y)%Q -> (0 < w)%Q -> forall p p', placed x y w t 450 p p' -> ~ (snd (image (f_matrix f') p) == snd p')%Q).
Proof.
  intros fuel turn text look sd h st d trim f f' X R F. unfold fill in F. apply bind_ok in F. destruct F as (m & _ & F). apply bind_ok in F. destruct F as (c & _ & F).
  apply bind_ok in F. destruct F as (box & _ & F). apply bind_ok in F. destruct F as (s & S & F). rewrite R in F. cbn [bind] in F. apply ok_inj in F. subst f'.
  exists (rl box), (rb box), (rw box), (rh box). cbn [f_bbox f_matrix]. split; [reflexivity|]. change (if 450 <? 0 then 360 + 450 else 450) with 450.
  assert (I : forall u v, (fst (image (form_matrix turn 450 (turned_rect 450 box)) (u, v)) == v - rl box /\ snd (image (form_matrix turn 450 (turned_rect 450 box)) (u, v)) == - u - rb box)%Q).
  { intros u v. destruct (X (Z.opp 450)) as (_ & _ & _ & X3). unfold form_matrix. rewrite X3 by reflexivity. unfold image, turned_rect. cbn. split; ring. }
  split; [exact I|]. intros Px Py Pw [u v] p' P E. destruct (I u v) as (_ & I2). inversion P; subst; try discriminate. cbn [snd] in E. lra.
Qed.
Print Assumptions C144_turn_refuted.
(** False: GetRect of the form of a page turned by 90 degrees has left and bottom swapped, which its box has not, so it is another when the form is opened again *)
Theorem C144_rect_refuted : forall fuel turn text look sd h st d trim f f', get_rotation fuel look sd = Ok 90 -> fill fuel turn text look sd h st d trim f = Ok f' ->
  forall q, reopened_rect f' = Ok q -> (0 <= rw (f_rect f'))%Q -> (0 <= rh (f_rect f'))%Q ->
  (rl (f_rect f') == rb q /\ rb (f_rect f') == rl q /\ rw (f_rect f') == rh q /\ rh (f_rect f') == rw q)%Q.
Proof.
  intros fuel turn text look sd h st d trim f f' R F q Q W H. unfold fill in F. apply bind_ok in F. destruct F as (m & _ & F). apply bind_ok in F. destruct F as (c & _ & F).
  apply bind_ok in F. destruct F as (box & _ & F). apply bind_ok in F. destruct F as (s & S & F). rewrite R in F. cbn [bind] in F. apply ok_inj in F. subst f'.
  unfold reopened_rect in Q. cbn [f_bbox f_rect] in *. unfold turned_rect in *. cbn in W, H |- *.
  destruct (RectProps.C59_array_roundtrip box H W) as (q' & Q' & A & B & C & D). assert (q' = q) by congruence. subst q'. repeat split; symmetry; assumption.
Qed.
Print Assumptions C144_rect_refuted.
(** A page with two streams, turned by -90 degrees, with resources of its own *)
Definition quarter (a : Z) : Q * Q := (if a mod 360 =? 0 then (1, 0) else if a mod 360 =? 90 then (0, 1) else if a mod 360 =? 180 then (-1 # 1, 0) else (0, -1 # 1))%Q.
Example C144_exact : exact quarter.
Proof. intros a. unfold quarter. repeat split; intros ->; reflexivity. Qed.
Definition a_page : list (list Z * obj) := [(bs "Contents", OArr [ORef 5 0; ORef 6 0]); (bs "CropBox", OArr [ONum 10; ONum 20; ONum 60; ONum 120]);
  (bs "MediaBox", OArr [ONum 0; ONum 0; ONum 100; ONum 100]); (bs "Resources", ODict []); (bs "Rotate", ONum (-90))].
Definition its_objects : heap := fun r => if ListModel.ref_eqb r (5, 0) then Some (ODict []) else if ListModel.ref_eqb r (6, 0) then Some (ORef 7 0) else if ListModel.ref_eqb r (7, 0) then Some (ODict []) else None.
Definition its_streams : ref -> option (list Z) := fun r => if ListModel.ref_eqb r (5, 0) then Some (bs "q ") else if ListModel.ref_eqb r (7, 0) then Some (bs "Q ") else None.
Example C144_case :
  match fill 3 quarter (fun _ => []) its_objects a_page its_objects its_streams a_page true (mk_form (mk_rect 0 0 1 1) [] identity None None) with
  | Ok f => map Qred (f_bbox f) = [10; 20; 60; 100]%Q /\ f_res f = Some (ODict []) /\ f_stream f = Some (bs "q Q ") /\
    Qred (fst (image (f_matrix f) (10, 100)%Q)) = 0%Q /\ Qred (snd (image (f_matrix f) (10, 100)%Q)) = 0%Q /\ Qred (fst (image (f_matrix f) (60, 20)%Q)) = 80%Q /\ Qred (snd (image (f_matrix f) (60, 20)%Q)) = 50%Q
  | _ => False
  end.
Proof. vm_compute. repeat split; reflexivity. Qed.
