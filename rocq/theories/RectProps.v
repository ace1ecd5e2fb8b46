(** Theorems on rectangles and matrices. A rectangle is the set of its points. *)
From Coq Require Import QArith Qminmax Lqa.
From Verif Require Import Base RectModel.
Local Open Scope Q_scope.

Definition between (a b x : Q) : Prop := Qmin a b <= x <= Qmax a b.
Definition inside (r : rect) (x y : Q) : Prop := contains r x y = true.
Definition same_point (p q : Q * Q) : Prop := fst p == fst q /\ snd p == snd q.

Lemma ltb_spec a b : reflect (a < b) (ltb a b).
Proof.
  unfold ltb. destruct (Qle_bool b a) eqn:E; constructor.
  - apply Qle_bool_iff in E. apply Qle_not_lt. exact E.
  - apply Qnot_le_lt. intros H. apply Qle_bool_iff in H. congruence.
Qed.
Lemma nonzero_spec a : nonzero a = true <-> ~ a == 0.
Proof.
  unfold nonzero. destruct (Qeq_bool a 0) eqn:E; cbn [negb].
  - apply Qeq_bool_iff in E. split; [discriminate|intros N; contradiction].
  - split; [intros _ H; apply Qeq_bool_iff in H; congruence|reflexivity].
Qed.
Lemma inside_iff r x y : inside r x y <-> rl r <= x <= rl r + rw r /\ rb r <= y <= rb r + rh r.
Proof. unfold inside, contains. rewrite !Bool.andb_true_iff, !Qle_bool_iff. tauto. Qed.
Lemma between_iff a b x : between a b x <-> (a <= x /\ x <= b) \/ (b <= x /\ x <= a).
Proof.
  unfold between. destruct (Q.min_spec a b) as [[L ->]|[L ->]], (Q.max_spec a b) as [[M ->]|[M ->]]; split; intros; lra || (try (left; lra); try (right; lra)).
Qed.
Ltac norm := unfold from_corners, normalize; repeat match goal with |- context [ltb ?a ?b] => destruct (ltb_spec a b) end; cbn [rl rb rw rh].

(** ** C59 *)
(** A rectangle made from two opposite corners has exactly the points between them, and no negative size *)
Theorem C59_corners x1 y1 x2 y2 : exists r, from_array [x1; y1; x2; y2] = Ok r /\ 0 <= rw r /\ 0 <= rh r /\ forall x y, inside r x y <-> between x1 x2 x /\ between y1 y2 y.
Proof.
  eexists. split; [reflexivity|]. split; [norm; lra|]. split; [norm; lra|]. intros x y. rewrite inside_iff, !between_iff. norm; split; intros; repeat split; lra || (intuition lra).
Qed.
Print Assumptions C59_corners.
(** Any other array is refused *)
Theorem C59_arrays arr : length arr <> 4%nat -> from_array arr = Err EValueOutOfRange.
Proof. intros L. do 5 (destruct arr as [|? arr]; try reflexivity). cbn in L. congruence. Qed.
Print Assumptions C59_arrays.
(** Writing and reading keeps a rectangle with a size that is not negative *)
Theorem C59_array_roundtrip r : 0 <= rw r -> 0 <= rh r -> exists r', from_array (to_array r) = Ok r' /\ rl r' == rl r /\ rb r' == rb r /\ rw r' == rw r /\ rh r' == rh r.
Proof. intros W H. eexists. split; [reflexivity|]. norm; repeat split; lra. Qed.
Print Assumptions C59_array_roundtrip.
(** Intersecting gives the common points, unless the other rectangle has zeros only *)
Theorem C59_intersect_partial a b : ~ (rl b == 0 /\ rb b == 0 /\ rw b == 0 /\ rh b == 0) -> forall x y, inside (intersect a b) x y <-> inside a x y /\ inside b x y.
Proof.
  intros N x y. unfold intersect. destruct (nonzero (rb b) || nonzero (rh b) || nonzero (rl b) || nonzero (rw b)) eqn:Z0.
  - rewrite !inside_iff. cbv zeta. repeat match goal with |- context [ltb ?u ?v] => destruct (ltb_spec u v); cbn [rl rb rw rh] in * end; split; intros; intuition lra.
  - exfalso. apply N. rewrite !Bool.orb_false_iff in Z0. destruct Z0 as [[[A B] C] D].
    assert (G : forall q, nonzero q = false -> q == 0) by (intros q E; destruct (Qeq_dec q 0) as [|X]; [assumption|apply nonzero_spec in X; congruence]). repeat split; apply G; assumption.
Qed.
Print Assumptions C59_intersect_partial.
(** With the rectangle that is only the origin nothing is cut *)
Theorem C59_intersect_zero_refuted : exists a b, inside (intersect a b) 1 1 /\ ~ inside b 1 1.
Proof. exists (mk_rect 0 0 2 2), (mk_rect 0 0 0 0). split; [vm_compute; reflexivity|vm_compute; discriminate]. Qed.
Print Assumptions C59_intersect_zero_refuted.
(** Rectangles without common points give negative sizes; written and read again there are points *)
Theorem C59_disjoint_refuted : exists a b r, 0 <= rw a /\ 0 <= rw b /\ (forall x y, ~ inside (intersect a b) x y) /\ from_array (to_array (intersect a b)) = Ok r /\ inside r (3 # 2) (1 # 2).
Proof.
  exists (mk_rect 0 0 1 1), (mk_rect 2 0 1 1). eexists. split; [cbn; lra|]. split; [cbn; lra|]. split; [|split; [reflexivity|vm_compute; reflexivity]].
  intros x y. rewrite inside_iff. cbn. lra.
Qed.
Print Assumptions C59_disjoint_refuted.
(** Transformed by a matrix without rotation, or with one by a quarter turn, it has the images of its points *)
Theorem C59_matrix_partial r m x y : (mb m == 0 /\ mc m == 0) \/ (ma m == 0 /\ md m == 0) -> inside r x y -> inside (times r m) (fst (image m (x, y))) (snd (image m (x, y))).
Proof.
  rewrite !inside_iff. unfold times, image. cbn [fst snd]. unfold right, top. intros M [[A B] [C D]]. 
  assert (LIN : forall k u v w, u <= v -> v <= w -> (0 <= k /\ k * u <= k * v /\ k * v <= k * w) \/ (k < 0 /\ k * w <= k * v /\ k * v <= k * u)) by (intros k u v w H1 H2; destruct (Qlt_le_dec k 0); [right|left]; nra).
  destruct M as [[B0 C0]|[A0 D0]].
  - pose proof (LIN (ma m) _ _ _ A B). pose proof (LIN (md m) _ _ _ C D). assert (E : forall q, mb m * q == 0) by (intros q; rewrite B0; ring). assert (F : forall q, mc m * q == 0) by (intros q; rewrite C0; ring).
    norm; pose proof (E (rl r)); pose proof (E x); pose proof (E (rl r + rw r)); pose proof (F (rb r)); pose proof (F y); pose proof (F (rb r + rh r)); split; intuition lra.
  - pose proof (LIN (mc m) _ _ _ C D). pose proof (LIN (mb m) _ _ _ A B). assert (E : forall q, ma m * q == 0) by (intros q; rewrite A0; ring). assert (F : forall q, md m * q == 0) by (intros q; rewrite D0; ring).
    norm; pose proof (E (rl r)); pose proof (E x); pose proof (E (rl r + rw r)); pose proof (F (rb r)); pose proof (F y); pose proof (F (rb r + rh r)); split; intuition lra.
Qed.
Print Assumptions C59_matrix_partial.
(** Rotated otherwise it does not: only two corners are used *)
Theorem C59_matrix_refuted : exists r m x y, inside r x y /\ ~ inside (times r m) (fst (image m (x, y))) (snd (image m (x, y))).
Proof. exists (mk_rect 0 0 1 1), (mk_matrix 1 1 (-1 # 1) 1 0 0), 1, 0. split; [vm_compute; reflexivity|vm_compute; discriminate]. Qed.
Print Assumptions C59_matrix_refuted.
Example C59_case : match from_array [30; 5; 10; 25] with Ok r => contains r 20 10 = true /\ contains r 9 10 = false /\ contains (intersect r (mk_rect 15 0 100 10)) 20 7 = true /\ contains (intersect r (mk_rect 15 0 100 10)) 14 7 = false | _ => False end.
Proof. vm_compute. repeat split. Qed.

(** ** C90 *)
(** The product of matrices transforms by the first, then by the second *)
Theorem C90_product m1 m2 v : same_point (image (mult m1 m2) v) (image m2 (image m1 v)).
Proof. unfold same_point, image, mult. cbn. split; ring. Qed.
Print Assumptions C90_product.
Theorem C90_identity m v : same_point (image identity v) v /\ same_point (image (mult identity m) v) (image m v) /\ same_point (image (mult m identity) v) (image m v).
Proof. unfold same_point, image, mult, identity. cbn. repeat split; ring. Qed.
Print Assumptions C90_identity.
(** A translation moves, a scaling scales, translating a matrix moves before it is applied *)
Theorem C90_translation t v : same_point (image (translation t) v) (fst v + fst t, snd v + snd t).
Proof. unfold same_point, image, translation. cbn. split; ring. Qed.
Print Assumptions C90_translation.
Theorem C90_scale s v : same_point (image (scale s) v) (fst s * fst v, snd s * snd v).
Proof. unfold same_point, image, scale. cbn. split; ring. Qed.
Print Assumptions C90_scale.
Theorem C90_translate m t v : same_point (image (translate m t) v) (image m (fst v + fst t, snd v + snd t)).
Proof. unfold same_point, image, translate. cbn. split; ring. Qed.
Print Assumptions C90_translate.
(** A rotation keeps its centre and all distances; the vector to the right of the centre goes to (cos, sin): counterclockwise *)
Theorem C90_rotation c al be v w : al * al + be * be == 1 ->
  let d := fun p q : Q * Q => (fst p - fst q) * (fst p - fst q) + (snd p - snd q) * (snd p - snd q) in
  same_point (image (rotation c al be) c) c /\ d (image (rotation c al be) v) (image (rotation c al be) w) == d v w /\
  same_point (image (rotation c al be) (fst c + 1, snd c)) (fst c + al, snd c + be).
Proof.
  intros H d. unfold same_point, d, image, rotation. cbn. split; [split; ring|]. split; [|split; ring].
  transitivity ((al * al + be * be) * ((fst v - fst w) * (fst v - fst w) + (snd v - snd w) * (snd v - snd w))); [ring|]. rewrite H. ring.
Qed.
Print Assumptions C90_rotation.
Example C90_case : same_point (image (mult (scale (2, 3)) (rotation (0, 0) (3 # 5) (4 # 5))) (5, 5)) (-6 # 1, 17).
Proof. vm_compute. split; reflexivity. Qed.
