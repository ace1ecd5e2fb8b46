(** The shapes of the painter. *)
From Coq Require Import Lia String QArith Lqa.
From Verif Require Import Base PainterModel PainterSpec.
Local Open Scope Q_scope.

(** A quarter of a circle in a square of its tangents *)
Definition qx (k t : Q) : Q := at3 1 1 k 0 t.
Definition qy (k t : Q) : Q := at3 0 k 1 1 t.
Lemma quarter k t : qx k t * qx k t + qy k t * qy k t ==
  1 + (t * (1 - t)) * (t * (1 - t)) * ((- (6) + 6 * k + 9 * (k * k)) + (t * (1 - t)) * (- (8) + 24 * k - 18 * (k * k))).
Proof. unfold qx, qy, at3. ring. Qed.
Lemma sq_nonneg q : 0 <= q * q.
Proof. destruct q as [n d]. unfold Qle. cbn. nia. Qed.
Lemma part_bounds t : 0 <= t -> t <= 1 -> 0 <= t * (1 - t) /\ t * (1 - t) <= 1 # 4.
Proof.
  intros A B. split; [apply Qmult_le_0_compat; lra|]. pose proof (sq_nonneg (t - (1 # 2))) as C. nra.
Qed.
Lemma mid_bound s A B : 0 <= s -> s <= 1 # 4 -> 575 # 10000 <= A -> A <= 592 # 10000 -> - (236 # 1000) <= B -> B <= - (2354 # 10000) ->
  - (1 # 10000) <= s * s * (A + s * B) /\ s * s * (A + s * B) <= 6 # 10000.
Proof.
  intros S1 S2 A1 A2 B1 B2.
  pose proof (sq_nonneg s) as SS. assert (SS2 : s * s <= 1 # 16) by nra. pose proof (sq_nonneg (s - (1 # 6))) as S6.
  assert (L : - (15 # 10000) <= A + s * B) by nra.
  assert (U : A + s * B <= (592 # 10000) - (2354 # 10000) * s) by nra.
  split; [nra|]. assert (V : s * s * (A + s * B) <= s * s * ((592 # 10000) - (2354 # 10000) * s)) by nra.
  assert (W : 0 <= (s - (1 # 6)) * (s - (1 # 6)) * ((2354 # 10000) * s + (1 # 100))).
  { apply Qmult_le_0_compat; [exact S6|lra]. }
  nra.
Qed.
Lemma quarter_near k t : 5522 # 10000 <= k -> k <= 5523 # 10000 -> 0 <= t -> t <= 1 -> 1 - (1 # 10000) <= qx k t * qx k t + qy k t * qy k t <= 1 + (6 # 10000).
Proof.
  intros K1 K2 T1 T2. rewrite quarter. destruct (part_bounds t T1 T2) as [S1 S2]. generalize (t * (1 - t)) as s, S1, S2. intros s P1 P2.
  assert (KK : 0 <= (k - (5522 # 10000)) * ((5523 # 10000) - k)) by (apply Qmult_le_0_compat; lra).
  destruct (mid_bound s (- (6) + 6 * k + 9 * (k * k)) (- (8) + 24 * k - 18 * (k * k)) P1 P2) as [L U]; [nra|nra|nra|nra|]. lra.
Qed.
Lemma scaled r f X Y a b : f == a * a + b * b -> (X == r * a \/ X == - (r * a)) -> (Y == r * b \/ Y == - (r * b)) -> X * X + Y * Y == r * r * f.
Proof. intros F [HX|HX] [HY|HY]; rewrite HX, HY, F; ring. Qed.
Lemma bounds_scaled r f : 1 - (1 # 10000) <= f <= 1 + (6 # 10000) -> r * r * (1 - (1 # 10000)) <= r * r * f <= r * r * (1 + (6 # 10000)).
Proof. intros [L U]. pose proof (sq_nonneg r) as R. split; nra. Qed.
Definition near (r d2 : Q) : Prop := r * r * (1 - (1 # 10000)) <= d2 <= r * r * (1 + (6 # 10000)).
Lemma kappa_range : 5522 # 10000 <= kappa /\ kappa <= 5523 # 10000.
Proof. unfold kappa. split; unfold Qle; cbn; lia. Qed.
Lemma kappa2_range : 5522 # 10000 <= kappa2 /\ kappa2 <= 5523 # 10000.
Proof. unfold kappa2. split; unfold Qle; cbn; lia. Qed.
Lemma near_quarter r k t X Y : 5522 # 10000 <= k /\ k <= 5523 # 10000 -> 0 <= t <= 1 ->
  (X == r * qx k t \/ X == - (r * qx k t)) /\ (Y == r * qy k t \/ Y == - (r * qy k t)) \/ (X == r * qy k t \/ X == - (r * qy k t)) /\ (Y == r * qx k t \/ Y == - (r * qx k t)) ->
  near r (X * X + Y * Y).
Proof.
  intros [K1 K2] [T1 T2] H. pose proof (quarter_near k t K1 K2 T1 T2) as N. unfold near.
  destruct H as [[HX HY]|[HX HY]].
  - rewrite (scaled r _ X Y (qx k t) (qy k t) (Qeq_refl _) HX HY). apply bounds_scaled. exact N.
  - assert (F : qx k t * qx k t + qy k t * qy k t == qy k t * qy k t + qx k t * qx k t) by ring.
    rewrite (scaled r _ X Y (qy k t) (qx k t) F HX HY). apply bounds_scaled. exact N.
Qed.
Ltac quarter_case := unfold qx, qy, at3, from in *; cbn [fst snd] in *; match goal with P : ?px == _ |- _ => rewrite P end; ring.
Lemma circle_near x y r px py cur : traced cur (path_of (KCircle x y r)) px py -> near r ((px - x) * (px - x) + (py - y) * (py - y)).
Proof.
  cbn [path_of circle_path curve traced from fst snd]. pose proof kappa_range as K.
  intros [(t & T & A & B)|[(t & T & A & B)|[(t & T & A & B)|[(t & T & A & B)|[]]]]]; apply (near_quarter r kappa t _ _ K T); unfold qx, qy; unfold at3 in *.
  - left. split; left; [rewrite A|rewrite B]; ring.
  - right. split; [right; rewrite A|left; rewrite B]; ring.
  - left. split; right; [rewrite A|rewrite B]; ring.
  - right. split; [left; rewrite A|right; rewrite B]; ring.
Qed.
(** An ellipse in the rectangle: the same after its axes were made one *)
Lemma ellipse_near x y w h px py cur : traced cur (path_of (KEllipse x y w h)) px py ->
  forall X Y, px - (x + w / 2) == X * (w / 2) -> py - (y + h / 2) == Y * (h / 2) -> ~ w == 0 -> ~ h == 0 -> near 1 (X * X + Y * Y).
Proof.
  cbn [path_of ellipse_path curve traced from fst snd]. pose proof kappa2_range as K. intros H X Y EX EY W0 H0.
  assert (EX' : forall e, px - (x + w / 2) == e * (w / 2) -> X == e) by (intros e E; rewrite EX in E; apply (Qmult_inj_r X e (w / 2)); [intros Z0; apply W0; rewrite <- (Qmult_div_r w 2) by discriminate; rewrite Z0; reflexivity|exact E]).
  assert (EY' : forall e, py - (y + h / 2) == e * (h / 2) -> Y == e) by (intros e E; rewrite EY in E; apply (Qmult_inj_r Y e (h / 2)); [intros Z0; apply H0; rewrite <- (Qmult_div_r h 2) by discriminate; rewrite Z0; reflexivity|exact E]).
  destruct H as [(t & T & A & B)|[(t & T & A & B)|[(t & T & A & B)|[(t & T & A & B)|[]]]]]; apply (near_quarter 1 kappa2 t _ _ K T); unfold qx, qy; unfold at3 in *.
  - left. split; right; [apply EX'; rewrite A|apply EY'; rewrite B]; ring.
  - right. split; [left; apply EX'; rewrite A|right; apply EY'; rewrite B]; ring.
  - left. split; left; [apply EX'; rewrite A|apply EY'; rewrite B]; ring.
  - right. split; [right; apply EX'; rewrite A|left; apply EY'; rewrite B]; ring.
Qed.
(** Points stay between their ends and control points *)
Lemma at3_between lo hi a b c d t : lo <= a <= hi -> lo <= b <= hi -> lo <= c <= hi -> lo <= d <= hi -> 0 <= t <= 1 -> lo <= at3 a b c d t <= hi.
Proof.
  intros [A1 A2] [B1 B2] [C1 C2] [D1 D2] [T1 T2]. set (u := 1 - t). assert (U : 0 <= u) by (unfold u; lra).
  assert (W0 : 0 <= u * u * u) by (repeat apply Qmult_le_0_compat; assumption). assert (W1 : 0 <= t * u * u) by (repeat apply Qmult_le_0_compat; assumption).
  assert (W2 : 0 <= t * t * u) by (repeat apply Qmult_le_0_compat; assumption). assert (W3 : 0 <= t * t * t) by (repeat apply Qmult_le_0_compat; assumption).
  assert (SUM : u * u * u + 3 * (t * u * u) + 3 * (t * t * u) + t * t * t == 1) by (unfold u; ring).
  assert (E : forall v, at3 a b c d t - v == u * u * u * (a - v) + 3 * (t * u * u) * (b - v) + 3 * (t * t * u) * (c - v) + t * t * t * (d - v)) by (intros v; unfold at3, u; ring).
  assert (P : forall p q, 0 <= p -> 0 <= q -> 0 <= p * q) by (intros; apply Qmult_le_0_compat; assumption).
  split.
  - assert (0 <= at3 a b c d t - lo); [|lra]. rewrite E.
    pose proof (P (u * u * u) (a - lo) W0 ltac:(lra)). pose proof (P (t * u * u) (b - lo) W1 ltac:(lra)). pose proof (P (t * t * u) (c - lo) W2 ltac:(lra)). pose proof (P (t * t * t) (d - lo) W3 ltac:(lra)). lra.
  - assert (0 <= - (at3 a b c d t - hi)); [|lra]. rewrite E.
    pose proof (P (u * u * u) (hi - a) W0 ltac:(lra)). pose proof (P (t * u * u) (hi - b) W1 ltac:(lra)). pose proof (P (t * t * u) (hi - c) W2 ltac:(lra)). pose proof (P (t * t * t) (hi - d) W3 ltac:(lra)). lra.
Qed.
Lemma at1_between lo hi a b t : lo <= a <= hi -> lo <= b <= hi -> 0 <= t <= 1 -> lo <= at1 a b t <= hi.
Proof. intros A B T. unfold at1. split; nra. Qed.
Lemma round_inside x y w h rx ry px py cur : 0 <= rx -> 0 <= ry -> 2 * rx <= w -> 2 * ry <= h -> traced cur (path_of (KRect x y w h rx ry)) px py -> x <= px <= x + w /\ y <= py <= y + h.
Proof.
  intros R1 R2 W H. cbn [path_of]. destruct (rounded rx || rounded ry)%bool; [|intros []]. unfold round_path. cbn [traced curve fst snd].
  set (b := 4477 # 10000). assert (B1 : 0 <= b * rx /\ b * rx <= rx) by (unfold b; split; lra). assert (B2 : 0 <= b * ry /\ b * ry <= ry) by (unfold b; split; lra).
  intros H0. repeat (destruct H0 as [(t & T & A & B)|H0]); try contradiction H0.
  all: rewrite A, B; split; (apply at1_between || apply at3_between); first [exact T|lra].
Qed.
