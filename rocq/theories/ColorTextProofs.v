(** Proofs about colours in arrays, texts and colour spaces. *)
From Coq Require Import String QArith Lqa Lia.
From Verif Require Import Base ChainProofs TokModel ObjSpec GrammarSpec GrammarProps ColorTable ColorModel ColorSpec ColorProofs.
Local Open Scope Z_scope.

(** ** Arrays *)
Lemma array_back a s : told a = Some s -> proper s -> exists l b, to_array a = Ok l /\ from_array (map Some l) = Ok b /\ told b = Some s.
Proof.
  intros T P. told_cases T; unfold to_array; rewrite SP; unfold proper, parts in P; eexists.
  - inversion P as [|x y W _]; subst. destruct (gray_ok _ W) as (b & E & B). exists b. split; [reflexivity|]. unfold from_array. cbn [map try_from]. rewrite E. split; [reflexivity|exact B].
  - inversion P as [|x y W1 P1]; subst. inversion P1 as [|x y W2 P2]; subst. inversion P2 as [|x y W3 _]; subst. destruct (rgb_ok _ _ _ W1 W2 W3) as (b & E & B). exists b. split; [reflexivity|]. unfold from_array. cbn [map try_from]. rewrite E. split; [reflexivity|exact B].
  - inversion P as [|x y W1 P1]; subst. inversion P1 as [|x y W2 P2]; subst. inversion P2 as [|x y W3 P3]; subst. inversion P3 as [|x y W4 _]; subst. destruct (cmyk_ok _ _ _ _ W1 W2 W3 W4) as (b & E & B). exists b. split; [reflexivity|]. unfold from_array. cbn [map try_from]. rewrite E. split; [reflexivity|exact B].
Qed.
(** All that is read *)
Lemma array_parts s : proper s -> exists b, from_array (map Some (parts s)) = Ok b /\ told b = Some s.
Proof.
  intros P. destruct s as [g|r g b|c m y k]; unfold proper in P; cbn [parts] in *; unfold from_array; cbn [map try_from].
  - inversion P as [|x z W _]; subst. destruct (gray_ok _ W) as (x & E & B). rewrite E. exists x. split; [reflexivity|exact B].
  - inversion P as [|x z W1 P1]; subst. inversion P1 as [|x z W2 P2]; subst. inversion P2 as [|x z W3 _]; subst. destruct (rgb_ok _ _ _ W1 W2 W3) as (x & E & B). rewrite E. exists x. split; [reflexivity|exact B].
  - inversion P as [|x z W1 P1]; subst. inversion P1 as [|x z W2 P2]; subst. inversion P2 as [|x z W3 P3]; subst. inversion P3 as [|x z W4 _]; subst. destruct (cmyk_ok _ _ _ _ W1 W2 W3 W4) as (x & E & B). rewrite E. exists x. split; [reflexivity|exact B].
Qed.
Lemma gray_inv g c : gray g = Ok c -> within g /\ told c = Some (Gray g).
Proof. unfold gray. destruct (check_cases [g]) as [[-> F]|[-> F]]; intros E; [|discriminate]. cbn [bind] in E. apply ok_inj in E. subst c. inversion F. split; [assumption|reflexivity]. Qed.
Lemma rgb_inv r g b c : rgb r g b = Ok c -> Forall within [r; g; b] /\ told c = Some (Rgb r g b).
Proof. unfold rgb. destruct (check_cases [r; g; b]) as [[-> F]|[-> F]]; intros E; [|discriminate]. cbn [bind] in E. apply ok_inj in E. subst c. split; [assumption|reflexivity]. Qed.
Lemma cmyk_inv c m y k x : cmyk c m y k = Ok x -> Forall within [c; m; y; k] /\ told x = Some (Cmyk c m y k).
Proof. unfold cmyk. destruct (check_cases [c; m; y; k]) as [[-> F]|[-> F]]; intros E; [|discriminate]. cbn [bind] in E. apply ok_inj in E. subst x. split; [assumption|reflexivity]. Qed.
Lemma array_inv l c : from_array l = Ok c -> exists s, l = map Some (parts s) /\ proper s /\ told c = Some s.
Proof.
  unfold from_array. intros E. apply bind_ok in E as ([ok x] & E & F). destruct ok; [|discriminate]. apply ok_inj in F. subst x.
  destruct l as [|[a|] [|[b|] [|[d|] [|[e|] [|? ?]]]]]; try discriminate E; cbn [try_from] in E; apply bind_ok in E as (y & E & F); apply ok_inj in F; assert (y = c) by congruence; subst y.
  - apply gray_inv in E as [W T]. exists (Gray a). split; [reflexivity|]. split; [repeat constructor; apply W|exact T].
  - apply rgb_inv in E as [W T]. exists (Rgb a b d). split; [reflexivity|]. split; [exact W|exact T].
  - apply cmyk_inv in E as [W T]. exists (Cmyk a b d e). split; [reflexivity|]. split; [exact W|exact T].
Qed.

(** ** Texts: hexadecimal *)
Lemma hex1_val c v : hex1 c v -> hex_val c = Some v /\ 0 <= v <= 15.
Proof.
  unfold hex1, hex_val, is_digit. intros H. destruct (Z.leb_spec 48 c), (Z.leb_spec c 57), (Z.leb_spec 65 c), (Z.leb_spec c 70), (Z.leb_spec 97 c), (Z.leb_spec c 102); cbn [andb]; try lia; (split; [f_equal; lia|lia]).
Qed.
Lemma pair_val a b x y : hex1 a x -> hex1 b y -> hex_pair a b = Some (x * 16 + y) /\ 0 <= x * 16 + y <= 255.
Proof. intros A B. apply hex1_val in A as [A ?]. apply hex1_val in B as [B ?]. unfold hex_pair. rewrite A, B. split; [reflexivity|lia]. Qed.
Lemma part255_within z : 0 <= z <= 255 -> within (part255 z).
Proof. intros [A B]. unfold part255, within. rewrite Zle_Qle in A. rewrite Zle_Qle in B. change (inject_Z 0) with 0%Q in A. change (inject_Z 255) with 255%Q in B. split; [apply Qle_shift_div_l; lra|apply Qle_shift_div_r; lra]. Qed.
Lemma text_rgb t r g b : hexes t [r; g; b] -> exists c, from_string (35 :: t) = Ok (TColor c) /\ hex_rgb t = Ok c /\ told c = Some (Rgb (part255 r) (part255 g) (part255 b)).
Proof.
  intros H. inversion H as [|a1 a2 x1 x2 t1 l1 H1 A1 A2]; subst. inversion H1 as [|b1 b2 y1 y2 t2 l2 H2 B1 B2]; subst. inversion H2 as [|c1 c2 z1 z2 t3 l3 H3 C1 C2]; subst. inversion H3; subst.
  destruct (pair_val _ _ _ _ A1 A2) as [EA RA]. destruct (pair_val _ _ _ _ B1 B2) as [EB RB]. destruct (pair_val _ _ _ _ C1 C2) as [EC RC].
  destruct (rgb_ok _ _ _ (part255_within _ RA) (part255_within _ RB) (part255_within _ RC)) as (c & E & T). exists c.
  assert (HX : hex_rgb [a1; a2; b1; b2; c1; c2] = Ok c) by (unfold hex_rgb; rewrite EA, EB, EC; exact E). split; [|split; [exact HX|exact T]].
  unfold from_string. change (is_digit 35 || (35 =? 46)) with false. cbv iota. change (35 =? 35) with true. cbv iota. rewrite HX. reflexivity.
Qed.
Lemma text_cmyk t c m y k : hexes t [c; m; y; k] -> exists x, from_string (35 :: t) = Ok (TColor x) /\ told x = Some (Cmyk (part255 c) (part255 m) (part255 y) (part255 k)).
Proof.
  intros H. inversion H as [|a1 a2 x1 x2 t1 l1 H1 A1 A2]; subst. inversion H1 as [|b1 b2 y1 y2 t2 l2 H2 B1 B2]; subst. inversion H2 as [|c1 c2 z1 z2 t3 l3 H3 C1 C2]; subst. inversion H3 as [|d1 d2 w1 w2 t4 l4 H4 D1 D2]; subst. inversion H4; subst.
  destruct (pair_val _ _ _ _ A1 A2) as [EA RA]. destruct (pair_val _ _ _ _ B1 B2) as [EB RB]. destruct (pair_val _ _ _ _ C1 C2) as [EC RC]. destruct (pair_val _ _ _ _ D1 D2) as [ED RD].
  destruct (cmyk_ok _ _ _ _ (part255_within _ RA) (part255_within _ RB) (part255_within _ RC) (part255_within _ RD)) as (x & E & T). exists x. split; [|exact T].
  unfold from_string. change (is_digit 35 || (35 =? 46)) with false. cbv iota. change (35 =? 35) with true. cbv iota. rewrite EA, EB, EC, ED, E. reflexivity.
Qed.
(** ** Texts: arrays *)
Lemma text_array t l : spelled default_params t (OArr l) -> (S (inner (OArr l)) <= 256)%nat -> from_string t = do c <- from_array (map real_of l); Ok (TColor c).
Proof.
  intros SP IN. destruct (C110_spellings_read [] t (OArr l) [] ltac:(constructor) SP) as (s & E & _); [|exact IN|].
  - split; [|split; [intros ->; inversion SP|exact I]]. unfold separate. inversion SP; subst. auto.
  - cbn [app] in E. rewrite app_nil_r in E. inversion SP as [| | | | | | | | | t0 l0 R |]; subst. unfold from_string. change (is_digit 91 || (91 =? 46)) with false. cbv iota. change (91 =? 35) with false. cbv iota. change (91 =? 91) with true. cbv iota. rewrite E. reflexivity.
Qed.

(** ** Texts: numbers *)
Lemma frac_digits t q : frac t q -> forall acc n, exists v, digits acc n t = (v, (n + length t)%nat, []) /\ (inject_Z v == inject_Z (10 ^ Z.of_nat (length t)) * (inject_Z acc + q))%Q.
Proof.
  induction 1 as [|d t q D F IH]; intros acc n.
  - exists acc. cbn [digits length]. rewrite Nat.add_0_r. split; [reflexivity|]. change (inject_Z (10 ^ Z.of_nat 0)) with 1%Q. ring.
  - cbn [digits]. unfold is_digit. replace ((48 <=? 48 + d) && (48 + d <=? 57)) with true by lia. destruct (IH (acc * 10 + (48 + d - 48)) (S n)) as (v & E & V). exists v. split; [rewrite E; cbn [length]; rewrite Nat.add_succ_r; reflexivity|].
    rewrite V. cbn [length]. rewrite Nat2Z.inj_succ, Z.pow_succ_r by lia. replace (48 + d - 48) with d by lia. rewrite inject_Z_mult, inject_Z_plus, inject_Z_mult. change (inject_Z 10) with 10%Q. field.
Qed.
Lemma frac_within t q : frac t q -> within q.
Proof.
  induction 1 as [|d t q [D1 D2] F [IH1 IH2]]; [split; discriminate|]. rewrite Zle_Qle in D1, D2. change (inject_Z 0) with 0%Q in D1. change (inject_Z 9) with 9%Q in D2. split; [apply Qle_shift_div_l; lra|apply Qle_shift_div_r; lra].
Qed.
Lemma pow_pos k : (0 < inject_Z (10 ^ Z.of_nat k))%Q.
Proof. change 0%Q with (inject_Z 0). rewrite <- Zlt_Qlt. apply Z.pow_pos_nonneg; lia. Qed.
(** Any digit, a point, and digits: the first digit is lost *)
Lemma text_frac d t q : 0 <= d <= 9 -> frac t q -> t <> [] -> exists c g, from_string (48 + d :: 46 :: t) = Ok (TColor c) /\ told c = Some (Gray g) /\ (g == q)%Q.
Proof.
  intros D F N. unfold from_string, is_digit. replace ((48 <=? 48 + d) && (48 + d <=? 57)) with true by lia. cbn [orb]. unfold from_chars. cbn [firstn].
  assert (B : forall x, (exists y z, x = 105 :: y :: z \/ x = 110 :: y :: z) -> beq (to_lower (46 :: firstn 2 t)) x = false) by (intros x (y & z & [-> | ->]); reflexivity).
  rewrite !B by (eexists; eexists; (left; reflexivity) || (right; reflexivity)). cbn [digits]. change (is_digit 46) with false. cbv iota.
  destruct (frac_digits t q F 0 0) as (v & E & V). rewrite E. destruct t as [|x t]; [contradiction|]. change (0 + (0 + length (x :: t)) =? 0)%nat with false. cbv iota.
  set (g := (inject_Z v / inject_Z (10 ^ Z.of_nat (0 + length (x :: t))))%Q). assert (G : (g == q)%Q). { unfold g. rewrite V. cbn [Nat.add]. pose proof (pow_pos (length (x :: t))). change (inject_Z 0) with 0%Q. field. lra. }
  pose proof (frac_within _ _ F) as [W1 W2]. destruct (gray_ok g) as (c & EC & T); [split; lra|]. exists c, g. rewrite EC. split; [reflexivity|]. split; [exact T|exact G].
Qed.

(** ** Texts: names *)
Lemma less_irrefl a : less a a = false.
Proof. induction a as [|x a IH]; [reflexivity|]. cbn [less]. rewrite Z.ltb_irrefl, Z.eqb_refl, IH. reflexivity. Qed.
Lemma less_trans a : forall b c, less a b = true -> less b c = true -> less a c = true.
Proof.
  induction a as [|x a IH]; intros [|y b] [|z c] A B; try discriminate; try reflexivity. cbn [less] in *.
  destruct (Z.ltb_spec x y), (Z.ltb_spec y z), (Z.ltb_spec x z); cbn [orb] in *; try reflexivity; try lia; destruct (Z.eqb_spec x y), (Z.eqb_spec y z); cbn [andb] in *; try discriminate; try lia. destruct (Z.eqb_spec x z); [|lia]. cbn [andb]. eapply IH; eassumption.
Qed.
Lemma less_total a : forall b, less a b = false -> less b a = false -> a = b.
Proof.
  induction a as [|x a IH]; intros [|y b] A B; try discriminate; [reflexivity|]. cbn [less] in *. apply orb_false_iff in A as [A1 A2]. apply orb_false_iff in B as [B1 B2]. assert (x = y) by lia. subst y. rewrite Z.eqb_refl in A2, B2. f_equal. apply IH; assumption.
Qed.
Section Search.
Variable A : Type.
Variable t : list (list Z * A).
Fixpoint ascending (l : list (list Z * A)) : bool :=
  match l with a :: ((b :: _) as r) => less (fst a) (fst b) && ascending r | _ => true end.
Hypothesis SO : ascending t = true.
Lemma asc_tail a l : ascending (a :: l) = true -> ascending l = true.
Proof. destruct l; [reflexivity|]. cbn [ascending]. intros E. apply andb_true_iff in E. apply E. Qed.
Lemma asc_all l : forall a, ascending (a :: l) = true -> forall b, In b l -> less (fst a) (fst b) = true.
Proof.
  induction l as [|c l IH]; intros a E b I; [destruct I|]. cbn [ascending] in E. apply andb_true_iff in E as [E1 E2]. destruct I as [<-|I]; [exact E1|]. apply (less_trans _ (fst c)); [exact E1|]. apply (IH c E2 b I).
Qed.
Lemma asc_at l : ascending l = true -> forall i j p q, (i < j)%nat -> nth_error l i = Some p -> nth_error l j = Some q -> less (fst p) (fst q) = true.
Proof.
  induction l as [|a l IH]; intros E i j p q L P Q; [destruct i; discriminate|]. destruct j as [|j]; [lia|]. cbn [nth_error] in Q. destruct i as [|i].
  - injection P as <-. apply (asc_all l a E). eapply nth_error_In, Q.
  - cbn [nth_error] in P. apply (IH (asc_tail _ _ E) i j); [lia|exact P|exact Q].
Qed.
Lemma at_name i p : nth_error t i = Some p -> name_at t i = fst p.
Proof. unfold name_at. intros ->. reflexivity. Qed.
Lemma at_less i j : (i < j < length t)%nat -> less (name_at t i) (name_at t j) = true.
Proof.
  intros L. destruct (nth_error t i) as [p|] eqn:P; [|apply nth_error_None in P; lia]. destruct (nth_error t j) as [q|] eqn:Q; [|apply nth_error_None in Q; lia]. rewrite (at_name i p P), (at_name j q Q). exact (asc_at t SO i j p q ltac:(lia) P Q).
Qed.
Lemma half_less n : (0 < n)%nat -> (Nat.div2 n < n)%nat.
Proof. intros L. apply Nat.lt_div2. exact L. Qed.
Lemma bound_ok f : forall first len i, (len < f)%nat -> (first <= i)%nat -> (i <= first + len)%nat -> (first + len <= length t)%nat -> (i < length t)%nat -> lower_bound t f first len (name_at t i) = i.
Proof.
  induction f as [|f IH]; intros first len i F L1 L2 L4 L3; [lia|]. cbn [lower_bound]. destruct len as [|n]; [lia|]. pose proof (half_less (S n) ltac:(lia)) as H. set (h := Nat.div2 (S n)) in *.
  destruct (less (name_at t (first + h)) (name_at t i)) eqn:E.
  - assert (first + h < i)%nat.
    { destruct (Nat.lt_trichotomy (first + h) i) as [X|[X|X]]; [exact X| |]; [rewrite X, less_irrefl in E; discriminate|]. pose proof (less_trans _ _ _ E (at_less i (first + h) ltac:(lia))) as Z0. rewrite less_irrefl in Z0. discriminate. }
    apply IH; lia.
  - assert (i <= first + h)%nat. { destruct (Nat.le_gt_cases i (first + h)) as [X|X]; [exact X|]. rewrite (at_less (first + h) i ltac:(lia)) in E. discriminate. }
    apply IH; lia.
Qed.
Lemma range_ok f : forall first len i, (len < f)%nat -> (first <= i)%nat -> (i < first + len)%nat -> (first + len <= length t)%nat -> equal_range t f first len (name_at t i) = Some i.
Proof.
  induction f as [|f IH]; intros first len i F L1 L2 L4; [lia|]. cbn [equal_range]. destruct len as [|n]; [lia|]. pose proof (half_less (S n) ltac:(lia)) as H. set (h := Nat.div2 (S n)) in *.
  destruct (less (name_at t (first + h)) (name_at t i)) eqn:E.
  - assert (first + h < i)%nat.
    { destruct (Nat.lt_trichotomy (first + h) i) as [X|[X|X]]; [exact X| |]; [rewrite X, less_irrefl in E; discriminate|]. pose proof (less_trans _ _ _ E (at_less i (first + h) ltac:(lia))) as Z0. rewrite less_irrefl in Z0. discriminate. }
    apply IH; lia.
  - assert (LE : (i <= first + h)%nat). { destruct (Nat.le_gt_cases i (first + h)) as [X|X]; [exact X|]. rewrite (at_less (first + h) i ltac:(lia)) in E. discriminate. }
    destruct (less (name_at t i) (name_at t (first + h))) eqn:E2.
    + apply IH; try lia. destruct (Nat.eq_dec i (first + h)) as [X|X]; [rewrite <- X, less_irrefl in E2; discriminate|lia].
    + f_equal. apply bound_ok; lia.
Qed.
Lemma range_sound f : forall first len v i, (first + len <= length t)%nat -> equal_range t f first len v = Some i -> exists j, (j < length t)%nat /\ name_at t j = v.
Proof.
  induction f as [|f IH]; intros first len v i L E; [discriminate|]. cbn [equal_range] in E. destruct len as [|n]; [discriminate|]. pose proof (half_less (S n) ltac:(lia)) as H. set (h := Nat.div2 (S n)) in *.
  destruct (less (name_at t (first + h)) v) eqn:E1; [eapply IH; [|exact E]; lia|]. destruct (less v (name_at t (first + h))) eqn:E2; [eapply IH; [|exact E]; lia|]. exists (first + h)%nat. split; [lia|]. apply less_total; assumption.
Qed.
Lemma search_found v x : In (v, x) t -> search t v = Some x.
Proof.
  intros I. apply In_nth_error in I as (i & N). assert (L : (i < length t)%nat) by (apply nth_error_Some; congruence). pose proof (at_name i _ N) as NA. cbn [fst] in NA. unfold search. rewrite <- NA, range_ok by lia. rewrite N. reflexivity.
Qed.
Lemma search_none v : ~ In v (map fst t) -> search t v = None.
Proof.
  intros N. unfold search. destruct (equal_range t _ 0 (length t) v) as [i|] eqn:E; [|reflexivity]. apply range_sound in E as (j & L & NA); [|lia]. exfalso. apply N. destruct (nth_error t j) as [p|] eqn:P; [|apply nth_error_None in P; lia]. rewrite (at_name j p P) in NA. rewrite <- NA. apply in_map. eapply nth_error_In, P.
Qed.
End Search.
(** The table *)
Definition same_entry (a : list Z * res color) (b : list Z * (Z * Z * Z)) : bool :=
  beq (fst a) (fst b) && match snd a with
  | Ok c => let '(x, y, z) := snd b in space_eqb (c_space c) SRgb && (Qnum (c_0 c) * 255 =? x * Zpos (Qden (c_0 c))) && (Qnum (c_1 c) * 255 =? y * Zpos (Qden (c_1 c))) && (Qnum (c_2 c) * 255 =? z * Zpos (Qden (c_2 c)))
  | _ => false end.
Fixpoint same_entries (a : list (list Z * res color)) (b : list (list Z * (Z * Z * Z))) : bool :=
  match a, b with [], [] => true | x :: a, y :: b => same_entry x y && same_entries a b | _, _ => false end.
Lemma table_same : same_entries named_colors colors = true.
Proof. vm_compute. reflexivity. Qed.
Lemma table_ascending : ascending _ named_colors = true.
Proof. vm_compute. reflexivity. Qed.
Lemma entry_in a : forall b n x y z, same_entries a b = true -> In (n, (x, y, z)) b -> exists c, In (n, Ok c) a /\ c_space c = SRgb /\ (c_0 c == part255 x /\ c_1 c == part255 y /\ c_2 c == part255 z)%Q.
Proof.
  induction a as [|[m r] a IH]; intros [|[m' v] b] n x y z E I; try discriminate; [destruct I|]. cbn [same_entries] in E. apply andb_true_iff in E as [E1 E2]. destruct I as [I|I].
  - assert (m' = n) by congruence. assert (v = (x, y, z)) by congruence. subst m' v. unfold same_entry in E1. cbn [fst snd] in E1. apply andb_true_iff in E1 as [N E1]. apply beq_eq in N. subst m. destruct r as [c| | |]; try discriminate. exists c. split; [left; reflexivity|].
    apply andb_true_iff in E1 as [E1 Q3]. apply andb_true_iff in E1 as [E1 Q2]. apply andb_true_iff in E1 as [E1 Q1]. split; [destruct (c_space c); try discriminate; reflexivity|].
    assert (K : forall q z, Qnum q * 255 = z * Zpos (Qden q) -> (q == part255 z)%Q) by (intros q w K; unfold part255, Qeq, Qdiv, Qmult, Qinv, inject_Z; cbn [Qnum Qden]; change (Z.pos (1 * 255)) with 255; lia).
    repeat split; apply K; lia.
  - destruct (IH b n x y z E2 I) as (c & I2 & R). exists c. split; [right; exact I2|exact R].
Qed.
Lemma lower_case a b : Forall (fun c => 97 <= c <= 122) a -> Forall2 letter_case a b -> to_lower b = a.
Proof.
  intros F H. induction H as [|x y a b L H IH]; [reflexivity|]. inversion F as [|u v F1 F2]; subst. unfold to_lower in *. cbn [map]. rewrite IH by exact F2. f_equal. unfold lower1. destruct L as [->|[L ->]]; destruct ((65 <=? _) && _) eqn:E; lia.
Qed.
Lemma names_lower : forallb (fun p => forallb (fun c => (97 <=? c) && (c <=? 122)) (fst p) && negb (beq (fst p) [])) colors = true.
Proof. vm_compute. reflexivity. Qed.
Definition a_name (t : list Z) : Prop := match t with c :: _ => ~ (48 <= c <= 57) /\ c <> 46 /\ c <> 35 /\ c <> 91 | [] => False end.
Lemma from_name t : a_name t -> from_string t = match search named_colors (to_lower t) with Some c => do c <- c; Ok (TColor c) | None => Ok (TColor default_color) end.
Proof.
  destruct t as [|c t]; [intros []|]. intros (A & B & C & D). unfold from_string. assert (E : is_digit c || (c =? 46) = false) by (unfold is_digit; lia). rewrite E. destruct (Z.eqb_spec c 35); [contradiction|]. destruct (Z.eqb_spec c 91); [contradiction|]. reflexivity.
Qed.
Lemma text_name n x y z t : In (n, (x, y, z)) colors -> Forall2 letter_case n t -> exists c r g b, from_string t = Ok (TColor c) /\ told c = Some (Rgb r g b) /\ (r == part255 x /\ g == part255 y /\ b == part255 z)%Q.
Proof.
  intros I H. pose proof names_lower as L. rewrite forallb_forall in L. specialize (L _ I). cbn [fst] in L. apply andb_true_iff in L as [L NE]. assert (F : Forall (fun c => 97 <= c <= 122) n) by (apply Forall_forall; intros c Ic; rewrite forallb_forall in L; specialize (L c Ic); lia).
  destruct (entry_in _ _ _ _ _ _ table_same I) as (c & IC & SP & Q). assert (AN : a_name t).
  { destruct H as [|a b n t LC H]; [discriminate NE|]. inversion F as [|u v F1 F2]; subst. unfold a_name. destruct LC as [->|[LC ->]]; lia. }
  rewrite (from_name t AN), (lower_case n t F H), (search_found _ _ table_ascending _ _ IC). cbn [bind]. exists c, (c_0 c), (c_1 c), (c_2 c). split; [reflexivity|]. split; [unfold told; rewrite SP; reflexivity|exact Q].
Qed.
Lemma same_names a : forall b, same_entries a b = true -> map fst a = map fst b.
Proof. induction a as [|x a IH]; intros [|y b] E; try discriminate; [reflexivity|]. cbn [same_entries map] in *. apply andb_true_iff in E as [E1 E2]. f_equal; [|apply IH; exact E2]. unfold same_entry in E1. apply andb_true_iff in E1 as [E1 _]. apply beq_eq in E1. exact E1. Qed.
Lemma text_unknown t : a_name t -> ~ In (to_lower t) (map fst colors) -> from_string t = Ok (TColor default_color).
Proof. intros A N. rewrite (from_name t A). rewrite search_none; [reflexivity|]. rewrite (same_names _ _ table_same). exact N. Qed.

(** ** Tints *)
Definition fn_of (s : sampled) : fn := mk_fn (fn_bits s) (fn_decode s) (fn_domain s) (fn_encode s) (fn_range s) (fn_size s) (fn_data s).
Definition low (q : Q) : Prop := (0 <= q /\ q * 255 < 128)%Q.
Lemma char_ok q : low q -> exists z, to_char (times255 q) = Ok z /\ 0 <= z /\ (inject_Z z <= q * 255 /\ q * 255 < inject_Z z + 1)%Q.
Proof.
  intros [A B]. unfold times255. set (x := (q * 255)%Q) in *. assert (X0 : (0 <= x)%Q) by (unfold x; lra). clearbody x. clear A q. unfold to_char. destruct x as [n d]. cbn [Qnum Qden]. unfold Qle, Qlt in *. cbn [Qnum Qden] in *. rewrite Z.quot_div_nonneg by lia. pose proof (Z.div_mod n (Z.pos d) ltac:(lia)) as E. pose proof (Z.mod_pos_bound n (Z.pos d) ltac:(lia)) as M. set (z := n / Z.pos d) in *. assert (0 <= z <= 127) by nia.
  replace ((-128 <=? z) && (z <=? 127)) with true by lia. rewrite Z.mod_small by lia. exists z. split; [reflexivity|]. split; [lia|]. unfold inject_Z, Qplus. cbn [Qnum Qden]. split; nia.
Qed.
Lemma chars_ok l : Forall low l -> exists d, to_chars (map times255 l) = Ok d /\ Forall2 (fun q z => 0 <= z /\ (inject_Z z <= q * 255 /\ q * 255 < inject_Z z + 1)%Q) l d.
Proof.
  induction 1 as [|q l L F (d & E & G)]; [exists []; split; [reflexivity|constructor]|]. destruct (char_ok q L) as (z & EZ & R). exists (z :: d). cbn [map to_chars]. rewrite EZ. cbn [bind]. rewrite E. cbn [bind]. split; [reflexivity|]. constructor; assumption.
Qed.
Lemma tint_value q z x : (inject_Z z <= q * 255 /\ q * 255 < inject_Z z + 1)%Q -> within x -> (((1 - x) * 0 + x * inject_Z z) / 255 <= q * x /\ q * x <= ((1 - x) * 0 + x * inject_Z z) / 255 + (1 # 255))%Q.
Proof.
  intros [A B] [X0 X1]. assert (D : (((1 - x) * 0 + x * inject_Z z) / 255 == x * inject_Z z * (1 # 255))%Q) by (unfold Qdiv; change (/ 255)%Q with (1 # 255)%Q; ring). rewrite D. split; nra.
Qed.
Lemma scaled s : (0 + s / 255 * (1 - 0) == s / 255)%Q. Proof. ring. Qed.
Ltac tint_case R := match goal with |- (apply ?f ?j ?x <= ?c * ?x)%Q /\ _ => assert (V : (apply f j x == ((1 - x) * 0 + x * inject_Z (nth j (skipn (outputs f) (f_bytes f)) 0%Z)) / 255)%Q) by (unfold apply, at_; cbn -[Qplus Qmult Qminus Qdiv inject_Z Qinv]; apply scaled); rewrite V; apply tint_value; [exact R|assumption] end.
Lemma tint3 a b c d0 d1 d2 : Forall2 (fun q z => 0 <= z /\ (inject_Z z <= q * 255 /\ q * 255 < inject_Z z + 1)%Q) [a; b; c] [d0; d1; d2] -> tints (fn_of (tint [0; 1; 0; 1; 0; 1] ([0; 0; 0] ++ [d0; d1; d2]))) [a; b; c].
Proof.
  intros F. inversion F as [|? ? ? ? [_ R0] F1]; subst. inversion F1 as [|? ? ? ? [_ R1] F2]; subst. inversion F2 as [|? ? ? ? [_ R2] F3]; subst. intros j q x N W. destruct j as [|[|[|j]]]; cbn [nth_error] in N; [injection N as <-|injection N as <-|injection N as <-|destruct j; discriminate]; [tint_case R0|tint_case R1|tint_case R2].
Qed.
Lemma tint4 a b c k d0 d1 d2 d3 : Forall2 (fun q z => 0 <= z /\ (inject_Z z <= q * 255 /\ q * 255 < inject_Z z + 1)%Q) [a; b; c; k] [d0; d1; d2; d3] -> tints (fn_of (tint [0; 1; 0; 1; 0; 1; 0; 1] ([0; 0; 0; 0] ++ [d0; d1; d2; d3]))) [a; b; c; k].
Proof.
  intros F. inversion F as [|? ? ? ? [_ R0] F1]; subst. inversion F1 as [|? ? ? ? [_ R1] F2]; subst. inversion F2 as [|? ? ? ? [_ R2] F3]; subst. inversion F3 as [|? ? ? ? [_ R3] F4]; subst. intros j q x N W. destruct j as [|[|[|[|j]]]]; cbn [nth_error] in N; [injection N as <-|injection N as <-|injection N as <-|injection N as <-|destruct j; discriminate]; [tint_case R0|tint_case R1|tint_case R2|tint_case R3].
Qed.
Lemma told_gray a g : told a = Some (Gray g) -> c_space a = SGray /\ g = c_0 a.
Proof. unfold told. destruct (c_space a); try discriminate. intros E. injection E as E1. auto. Qed.
Lemma told_rgb a r g b : told a = Some (Rgb r g b) -> c_space a = SRgb /\ r = c_0 a /\ g = c_1 a /\ b = c_2 a.
Proof. unfold told. destruct (c_space a); try discriminate. intros E. injection E as E1 E2 E3. auto. Qed.
Lemma told_cmyk a c m y k : told a = Some (Cmyk c m y k) -> c_space a = SCmyk /\ c = c_0 a /\ m = c_1 a /\ y = c_2 a /\ k = c_3 a.
Proof. unfold told. destruct (c_space a); try discriminate. intros E. injection E as E1 E2 E3 E4. auto. Qed.
Lemma space_rgb name density a c r g b : separation name density a = Ok c -> told a = Some (Rgb r g b) -> Forall low [r; g; b] ->
  exists f, build_space c = Ok (Some (CsSeparation name (bs "DeviceRGB") f)) /\ tints (fn_of f) [r; g; b].
Proof.
  intros E T F. apply told_rgb in T as (SP & -> & -> & ->). unfold separation in E. rewrite SP in E. apply ok_inj in E. subst c. unfold build_space. cbn [c_space c_alt c_0 c_1 c_2 c_name]. destruct (chars_ok _ F) as (d & ED & FD). rewrite ED. cbn [bind].
  inversion FD as [|? d0 ? l0 R0 F1]; subst. inversion F1 as [|? d1 ? l1 R1 F2]; subst. inversion F2 as [|? d2 ? l2 R2 F3]; subst. inversion F3; subst. eexists. split; [reflexivity|]. apply tint3. exact FD.
Qed.
Lemma space_cmyk name density a x c m y k : separation name density a = Ok x -> told a = Some (Cmyk c m y k) -> Forall low [c; m; y; k] ->
  exists f, build_space x = Ok (Some (CsSeparation name (bs "DeviceCMYK") f)) /\ fn_ok (fn_of f) /\ tints (fn_of f) [c; m; y; k].
Proof.
  intros E T F. apply told_cmyk in T as (SP & -> & -> & -> & ->). unfold separation in E. rewrite SP in E. apply ok_inj in E. subst x. unfold build_space. cbn [c_space c_alt c_0 c_1 c_2 c_3 c_name]. destruct (chars_ok _ F) as (d & ED & FD). rewrite ED. cbn [bind].
  inversion FD as [|? d0 ? l0 R0 F1]; subst. inversion F1 as [|? d1 ? l1 R1 F2]; subst. inversion F2 as [|? d2 ? l2 R2 F3]; subst. inversion F3 as [|? d3 ? l3 R3 F4]; subst. inversion F4; subst. eexists. split; [reflexivity|]. split; [repeat split|]. apply tint4. exact FD.
Qed.
(** A part of half or more is undefined *)
Lemma char_high q : (128 <= q * 255)%Q -> to_char (times255 q) = UB.
Proof.
  unfold times255. set (x := (q * 255)%Q). intros A. clearbody x. unfold to_char. destruct x as [n d]. cbn [Qnum Qden]. unfold Qle in A. cbn [Qnum Qden] in A. rewrite Z.quot_div_nonneg by lia. pose proof (Z.div_le_lower_bound n (Z.pos d) 128 ltac:(lia) ltac:(lia)). replace (n / Z.pos d <=? 127) with false by lia. rewrite andb_false_r. reflexivity.
Qed.
Lemma chars_high l : Forall (fun q => 0 <= q)%Q l -> Exists (fun q => 128 <= q * 255)%Q l -> to_chars (map times255 l) = UB.
Proof.
  intros F X. induction X as [q l A|q l X IH]; cbn [map to_chars]; inversion F as [|u v F1 F2]; subst.
  - rewrite char_high by exact A. reflexivity.
  - destruct (Qlt_le_dec (q * 255) 128) as [L|L]; [|rewrite char_high by exact L; reflexivity]. destruct (char_ok q (conj F1 L)) as (z & -> & _). cbn [bind]. rewrite IH by exact F2. reflexivity.
Qed.
Lemma space_high name density a c s : separation name density a = Ok c -> told a = Some s -> proper s -> (forall g, s <> Gray g) -> Exists (fun q => 128 <= q * 255)%Q (parts s) -> build_space c = UB.
Proof.
  intros E T P NG X. assert (F : Forall (fun q => 0 <= q)%Q (parts s)) by (apply Forall_forall; intros q I; unfold proper in P; rewrite Forall_forall in P; apply (P q I)).
  told_cases T; unfold separation in E; rewrite SP in E; apply ok_inj in E; subst c; unfold build_space; cbn [c_space c_alt c_0 c_1 c_2 c_3 c_name]; [exfalso; eapply NG; reflexivity| |]; (rewrite chars_high; [reflexivity|exact F|exact X]).
Qed.
(** Gray: the byte is 0 for everything but white, and 1 for white *)
Lemma space_gray name density a c g : separation name density a = Ok c -> told a = Some (Gray g) -> within g ->
  exists f, build_space c = Ok (Some (CsSeparation name (bs "DeviceGray") f)) /\ forall x, within x -> (apply (fn_of f) 0 x <= 1 # 255)%Q.
Proof.
  intros E T [W0 W1]. apply told_gray in T as (SP & ->). unfold separation in E. rewrite SP in E. apply ok_inj in E. subst c. unfold build_space. cbn [c_space c_alt c_0 c_name to_chars]. unfold to_char.
  assert (Z01 : 0 <= Z.quot (Qnum (c_0 a)) (Zpos (Qden (c_0 a))) <= 1). { destruct (c_0 a) as [n d]. unfold Qle in *. cbn [Qnum Qden] in *. rewrite Z.quot_div_nonneg by lia. split; [apply Z.div_pos; lia|]. apply Z.div_le_upper_bound; lia. }
  set (z := Z.quot _ _) in *. replace ((-128 <=? z) && (z <=? 127)) with true by lia. rewrite Z.mod_small by lia. cbn [bind]. eexists. split; [reflexivity|]. intros x [X0 X1].
  match goal with |- (apply ?f ?j ?x <= _)%Q => assert (V : (apply f j x == ((1 - x) * 0 + x * inject_Z z) / 255)%Q) by (unfold apply, at_; cbn -[Qplus Qmult Qminus Qdiv inject_Z Qinv]; apply scaled) end. rewrite V.
  assert (D : (((1 - x) * 0 + x * inject_Z z) / 255 == x * inject_Z z * (1 # 255))%Q) by (unfold Qdiv; change (/ 255)%Q with (1 # 255)%Q; ring). rewrite D. assert (z = 0 \/ z = 1) as [-> | ->] by lia; [change (inject_Z 0) with 0%Q|change (inject_Z 1) with 1%Q]; nra.
Qed.
