(** Proofs about conversions of colours and their arrays. *)
From Coq Require Import String QArith Lqa.
From Verif Require Import Base ChainProofs TokModel ColorModel ColorSpec.
Local Open Scope Z_scope.

(** The colour as the getters tell it *)
Definition told (c : color) : option shade :=
  match c_space c with
  | SGray => Some (Gray (c_0 c))
  | SRgb => Some (Rgb (c_0 c) (c_1 c) (c_2 c))
  | SCmyk => Some (Cmyk (c_0 c) (c_1 c) (c_2 c) (c_3 c))
  | _ => None
  end.
Lemma in_range_iff q : in_range 0 1 q = true <-> within q.
Proof. unfold in_range, within. rewrite andb_true_iff, !Qle_bool_iff. tauto. Qed.
Lemma check_ok l : Forall within l -> check 0 1 l = Ok tt.
Proof. intros F. unfold check. rewrite (proj2 (forallb_forall _ _)); [reflexivity|]. intros x I. apply in_range_iff. rewrite Forall_forall in F. exact (F x I). Qed.
Lemma check_cases l : check 0 1 l = Ok tt /\ Forall within l \/ check 0 1 l = Err EValueOutOfRange /\ ~ Forall within l.
Proof.
  unfold check. destruct (forallb _ l) eqn:E; [left|right]; (split; [reflexivity|]).
  - apply Forall_forall. intros x I. apply in_range_iff. rewrite forallb_forall in E. exact (E x I).
  - intros F. rewrite (proj2 (forallb_forall _ _)) in E; [discriminate|]. intros x I. apply in_range_iff. rewrite Forall_forall in F. exact (F x I).
Qed.
Lemma gray_ok g : within g -> exists c, gray g = Ok c /\ told c = Some (Gray g).
Proof. intros W. unfold gray. rewrite check_ok by (repeat constructor; assumption || apply W). cbn [bind]. eexists. split; reflexivity. Qed.
Lemma rgb_ok r g b : within r -> within g -> within b -> exists c, rgb r g b = Ok c /\ told c = Some (Rgb r g b).
Proof. intros W1 W2 W3. unfold rgb. rewrite check_ok by (repeat (apply Forall_cons; [assumption|]); constructor). cbn [bind]. eexists. split; reflexivity. Qed.
Lemma cmyk_ok c m y k : within c -> within m -> within y -> within k -> exists x, cmyk c m y k = Ok x /\ told x = Some (Cmyk c m y k).
Proof. intros W1 W2 W3 W4. unfold cmyk. rewrite check_ok by (repeat (apply Forall_cons; [assumption|]); constructor). cbn [bind]. eexists. split; reflexivity. Qed.

Lemma through_within x k : within x -> within k -> within (1 - (x * (1 - k) + k))%Q.
Proof. unfold within. intros [A B] [C D]. split; nra. Qed.

Ltac told_cases H := unfold told in H; match type of H with context [c_space ?a] => destruct (c_space a) eqn:SP end; try discriminate H; injection H as <-.
(** ** To RGB *)
Lemma to_rgb_ok a s : told a = Some s -> proper s -> exists b r g l, to_rgb a = Ok b /\ told b = Some (Rgb r g l) /\ seen s r g l /\ proper (Rgb r g l).
Proof.
  intros T P. told_cases T; unfold to_rgb; rewrite SP; unfold proper, parts in P.
  - inversion P as [|x y W _]; subst. destruct (rgb_ok _ _ _ W W W) as (b & E & B). exists b. do 3 eexists. split; [exact E|]. split; [exact B|]. split; [unfold seen, light; repeat split; reflexivity|]. repeat (apply Forall_cons; [exact W|]). constructor.
  - exists a. do 3 eexists. split; [reflexivity|]. split; [unfold told; rewrite SP; reflexivity|]. split; [unfold seen, light; repeat split; reflexivity|exact P].
  - inversion P as [|x y W1 P1]; subst. inversion P1 as [|x y W2 P2]; subst. inversion P2 as [|x y W3 P3]; subst. inversion P3 as [|x y W4 _]; subst.
    unfold cmyk_rgb. destruct (rgb_ok _ _ _ (through_within _ _ W1 W4) (through_within _ _ W2 W4) (through_within _ _ W3 W4)) as (b & E & B).
    exists b. do 3 eexists. split; [exact E|]. split; [exact B|]. split; [unfold seen, light; repeat split; ring|].
    repeat (apply Forall_cons; [apply through_within; assumption|]). constructor.
Qed.
(** ** To gray *)
Definition luma (r g b : Q) : Q := ((299 # 1000) * r + (587 # 1000) * g + (114 # 1000) * b)%Q.
Lemma luma_within r g b : within r -> within g -> within b -> within (luma r g b).
Proof. unfold within, luma. intros [A1 A2] [B1 B2] [C1 C2]. split; lra. Qed.
Lemma rgb_gray_ok a r g b : told a = Some (Rgb r g b) -> proper (Rgb r g b) -> exists x, rgb_gray a = Ok x /\ told x = Some (Gray (luma r g b)).
Proof.
  intros T P. told_cases T. unfold proper, parts in P. inversion P as [|x y W1 P1]; subst. inversion P1 as [|x y W2 P2]; subst. inversion P2 as [|x y W3 _]; subst.
  destruct (gray_ok _ (luma_within _ _ _ W1 W2 W3)) as (x & E & B). exists x. split; [exact E|exact B].
Qed.
Lemma to_gray_ok a s : told a = Some s -> proper s -> exists b t, to_gray a = Ok b /\ told b = Some (Gray t) /\ within t /\ (let '(r, g, l) := light s in t == luma r g l)%Q.
Proof.
  intros T P. unfold to_gray. destruct s as [g|r g b|c m y k].
  - told_cases T. exists a, (c_0 a). split; [reflexivity|]. split; [unfold told; rewrite SP; reflexivity|]. inversion P as [|x y W _]; subst. split; [exact W|]. unfold light, luma. ring.
  - destruct (rgb_gray_ok a r g b T P) as (x & E & B). assert (SP : c_space a = SRgb) by (unfold told in T; destruct (c_space a); congruence). rewrite SP. exists x, (luma r g b). split; [exact E|]. split; [exact B|]. inversion P as [|u v W1 P1]; subst. inversion P1 as [|u v W2 P2]; subst. inversion P2 as [|u v W3 _]; subst. split; [apply luma_within; assumption|]. unfold light. reflexivity.
  - assert (SP : c_space a = SCmyk) by (unfold told in T; destruct (c_space a); congruence). rewrite SP. destruct (to_rgb_ok a _ T P) as (b & r & g & l & E & B & S1 & P1). rewrite E. cbn [bind]. assert (SB : c_space b = SRgb) by (unfold told in B; destruct (c_space b); congruence). rewrite SB.
    destruct (rgb_gray_ok b r g l B P1) as (x & E2 & B2). exists x, (luma r g l). split; [exact E2|]. split; [exact B2|]. inversion P1 as [|u v W1 P2]; subst. inversion P2 as [|u v W2 P3]; subst. inversion P3 as [|u v W3 _]; subst. split; [apply luma_within; assumption|]. unfold seen in S1. destruct (light (Cmyk c m y k)) as [[u v] w]. destruct S1 as (U1 & U2 & U3). unfold luma. rewrite U1, U2, U3. reflexivity.
Qed.
(** ** To CMYK *)
Lemma qmin_le a b : (qmin a b <= a)%Q /\ (qmin a b <= b)%Q /\ (qmin a b == a \/ qmin a b == b)%Q.
Proof.
  unfold qmin. destruct (Qle_bool a b) eqn:E.
  - apply Qle_bool_iff in E. split; [apply Qle_refl|]. split; [exact E|left; reflexivity].
  - assert (N : ~ (a <= b)%Q) by (intros L; apply Qle_bool_iff in L; congruence). apply Qnot_le_lt in N. split; [apply Qlt_le_weak; exact N|]. split; [apply Qle_refl|right; reflexivity].
Qed.
Lemma part_facts x k : within x -> (0 <= k)%Q -> (k <= 1 - x)%Q -> (k < 1)%Q -> within ((1 - x - k) / (1 - k))%Q /\ ((1 - (1 - x - k) / (1 - k)) * (1 - k) == x)%Q.
Proof.
  intros [A B] K0 K1 K2. assert (D : (0 < 1 - k)%Q) by lra. assert (E : (((1 - x - k) / (1 - k)) * (1 - k) == 1 - x - k)%Q) by (field; lra). split.
  - split; [apply Qle_shift_div_l; [exact D|]; lra|apply Qle_shift_div_r; [exact D|]; lra].
  - field. lra.
Qed.
Lemma rgb_cmyk_ok a r g b : told a = Some (Rgb r g b) -> proper (Rgb r g b) -> exists x s, rgb_cmyk a = Ok x /\ told x = Some s /\ proper s /\ seen s r g b /\ most_black s /\ exists c m y k, s = Cmyk c m y k.
Proof.
  intros T P. told_cases T. unfold proper, parts in P. inversion P as [|u v W1 P1]; subst. inversion P1 as [|u v W2 P2]; subst. inversion P2 as [|u v W3 _]; subst. unfold rgb_cmyk.
  set (k := qmin (1 - c_0 a) (qmin (1 - c_1 a) (1 - c_2 a))).
  assert (KF : (0 <= k /\ k <= 1 - c_0 a /\ k <= 1 - c_1 a /\ k <= 1 - c_2 a)%Q /\ (k == 1 - c_0 a \/ k == 1 - c_1 a \/ k == 1 - c_2 a)%Q).
  { destruct (qmin_le (1 - c_1 a) (1 - c_2 a)) as (A1 & A2 & A3). destruct (qmin_le (1 - c_0 a) (qmin (1 - c_1 a) (1 - c_2 a))) as (B1 & B2 & B3). fold k in B1, B2, B3. destruct W1, W2, W3. split; [|destruct B3 as [B3|B3]; [left; exact B3|rewrite B3; destruct A3; [right; left; assumption|right; right; assumption]]].
    split; [|split; [exact B1|split; lra]]. destruct B3 as [B3|B3]; [lra|destruct A3 as [A3|A3]; lra]. }
  destruct KF as [(K0 & K1 & K2 & K3) KE]. assert (WK : within k) by (split; [exact K0|destruct W1; lra]).
  destruct (Qle_bool 1 k) eqn:L.
  - apply Qle_bool_iff in L. assert (W0 : within 0) by (split; lra). destruct (cmyk_ok 0 0 0 k W0 W0 W0 WK) as (x & E & B). exists x, (Cmyk 0 0 0 k). split; [exact E|]. split; [exact B|].
    split; [repeat (apply Forall_cons; [assumption|]); constructor|]. destruct W1, W2, W3. split; [unfold seen, light; repeat split; lra|]. split; [unfold most_black; split; [left; reflexivity|intros _; repeat split; reflexivity]|]. do 4 eexists. reflexivity.
  - assert (L2 : (k < 1)%Q) by (apply Qnot_le_lt; intros X; apply Qle_bool_iff in X; congruence).
    destruct (part_facts _ _ W1 K0 K1 L2) as [V1 E1]. destruct (part_facts _ _ W2 K0 K2 L2) as [V2 E2]. destruct (part_facts _ _ W3 K0 K3 L2) as [V3 E3].
    destruct (cmyk_ok _ _ _ _ V1 V2 V3 WK) as (x & E & B). exists x. eexists. split; [exact E|]. split; [exact B|]. split; [repeat (apply Forall_cons; [assumption|]); constructor|].
    split; [unfold seen, light; repeat split; assumption|]. split; [|do 4 eexists; reflexivity]. unfold most_black. split; [|intros X; lra].
    destruct KE as [KE|[KE|KE]]; [left|right; left|right; right]; (match goal with |- (?n / ?d == 0)%Q => assert (Z0 : (n == 0)%Q) by lra; rewrite Z0; unfold Qdiv; ring end).
Qed.
Lemma seen_trans s r g b s' : seen s r g b -> seen s' r g b -> (let '(x, y, z) := light s in seen s' x y z).
Proof. unfold seen. destruct (light s) as [[x y] z], (light s') as [[x' y'] z']. intros (A & B & C) (D & E & F). repeat split; etransitivity; eassumption || (symmetry; eassumption). Qed.
Lemma to_cmyk_ok a s : told a = Some s -> proper s -> exists b t, to_cmyk a = Ok b /\ told b = Some t /\ proper t /\ (let '(r, g, l) := light s in seen t r g l) /\ exists c m y k, t = Cmyk c m y k.
Proof.
  intros T P. unfold to_cmyk. destruct s as [g|r g b|c m y k].
  - assert (SP : c_space a = SGray) by (unfold told in T; destruct (c_space a); congruence). rewrite SP. destruct (to_rgb_ok a _ T P) as (b & r & h & l & E & B & S1 & P1). rewrite E. cbn [bind]. assert (SB : c_space b = SRgb) by (unfold told in B; destruct (c_space b); congruence). rewrite SB.
    destruct (rgb_cmyk_ok b r h l B P1) as (x & t & E2 & B2 & P2 & S2 & _ & F). exists x, t. split; [exact E2|]. split; [exact B2|]. split; [exact P2|]. split; [|exact F]. exact (seen_trans (Gray g) _ _ _ t S1 S2).
  - assert (SP : c_space a = SRgb) by (unfold told in T; destruct (c_space a); congruence). rewrite SP. destruct (rgb_cmyk_ok a r g b T P) as (x & t & E2 & B2 & P2 & S2 & _ & F). exists x, t. split; [exact E2|]. split; [exact B2|]. split; [exact P2|]. split; [exact S2|exact F].
  - assert (SP : c_space a = SCmyk) by (unfold told in T; destruct (c_space a); congruence). rewrite SP. exists a. eexists. split; [reflexivity|]. split; [exact T|]. split; [exact P|]. split; [unfold light, seen; cbn [light]; repeat split; reflexivity|do 4 eexists; reflexivity].
Qed.
(** The inks with most black are determined by the light *)
Lemma inks_unique c m y k c' m' y' k' r g b : proper (Cmyk c m y k) -> proper (Cmyk c' m' y' k') -> seen (Cmyk c m y k) r g b -> seen (Cmyk c' m' y' k') r g b -> most_black (Cmyk c m y k) -> most_black (Cmyk c' m' y' k') -> alike (Cmyk c m y k) (Cmyk c' m' y' k').
Proof.
  unfold proper, parts, seen, light, most_black, alike. intros P P' (A1 & A2 & A3) (B1 & B2 & B3) (M & N) (M' & N').
  inversion P as [|u v [W1 X1] P1]; subst. inversion P1 as [|u v [W2 X2] P2]; subst. inversion P2 as [|u v [W3 X3] P3]; subst. inversion P3 as [|u v [W4 X4] _]; subst.
  inversion P' as [|u v [V1 Y1] Q1]; subst. inversion Q1 as [|u v [V2 Y2] Q2]; subst. inversion Q2 as [|u v [V3 Y3] Q3]; subst. inversion Q3 as [|u v [V4 Y4] _]; subst.
  assert (K : (k == k')%Q).
  { assert (L : forall c m y k r g b, (0 <= c -> 0 <= m -> 0 <= y -> 0 <= k -> k <= 1 -> (1 - c) * (1 - k) == r -> (1 - m) * (1 - k) == g -> (1 - y) * (1 - k) == b -> r <= 1 - k /\ g <= 1 - k /\ b <= 1 - k)%Q) by (intros; nra).
    assert (L' : forall c m y k r g b, ((1 - c) * (1 - k) == r -> (1 - m) * (1 - k) == g -> (1 - y) * (1 - k) == b -> (c == 0 \/ m == 0 \/ y == 0) -> r == 1 - k \/ g == 1 - k \/ b == 1 - k)%Q).
    { intros c0 m0 y0 k0 r0 g0 b0 E1 E2 E3 [Z0|[Z0|Z0]]; [left; rewrite <- E1|right; left; rewrite <- E2|right; right; rewrite <- E3]; rewrite Z0; ring. }
    destruct (L _ _ _ _ _ _ _ W1 W2 W3 W4 X4 A1 A2 A3) as (U1 & U2 & U3). destruct (L _ _ _ _ _ _ _ V1 V2 V3 V4 Y4 B1 B2 B3) as (T1 & T2 & T3).
    pose proof (L' _ _ _ _ _ _ _ A1 A2 A3 M) as Z1. pose proof (L' _ _ _ _ _ _ _ B1 B2 B3 M') as Z2. destruct Z1 as [Z1|[Z1|Z1]], Z2 as [Z2|[Z2|Z2]]; lra. }
  destruct (Qeq_dec k 1) as [K1|K1].
  - destruct (N K1) as (C1 & C2 & C3). destruct (N' ltac:(lra)) as (C1' & C2' & C3'). repeat constructor; lra.
  - assert (D : (0 < 1 - k)%Q) by (destruct (Qlt_le_dec 0 (1 - k)) as [Y|Y]; [exact Y|exfalso; apply K1; lra]). rewrite <- K in B1, B2, B3.
    assert (I : forall x x' r, ((1 - x) * (1 - k) == r -> (1 - x') * (1 - k) == r -> x == x')%Q).
    { intros x x' r0 E1 E2. assert (Z0 : ((x - x') * (1 - k) == 0)%Q) by (rewrite <- E1 in E2; lra). apply Qmult_integral in Z0 as [Z0|Z0]; lra. }
    repeat constructor; [exact (I _ _ _ A1 B1)|exact (I _ _ _ A2 B2)|exact (I _ _ _ A3 B3)|exact K].
Qed.
