(** Proofs about dates. *)
From Coq Require Import String.
From Verif Require Import Base TokModel WriteModel LexProofs TextProofs DateModel DateSpec.
Local Open Scope Z_scope.

(** ** Finite checks over an interval *)
Fixpoint zseq (from : Z) (n : nat) : list Z := match n with O => [] | S n' => from :: zseq (from + 1) n' end.
Lemma zseq_in n : forall from v, from <= v < from + Z.of_nat n -> In v (zseq from n).
Proof.
  induction n as [|n IH]; intros from v H; [lia|]. cbn [zseq].
  destruct (Z.eq_dec v from) as [->|N]; [left; reflexivity|right]. apply IH. lia.
Qed.
Lemma range_check (P : Z -> bool) (n : Z) : 0 <= n -> forallb P (zseq 0 (Z.to_nat n)) = true ->
  forall v, 0 <= v < n -> P v = true.
Proof.
  intros N F v H. rewrite forallb_forall in F. apply F, zseq_in. rewrite Z2Nat.id by lia. lia.
Qed.

Lemma pad2 v : 0 <= v < 100 -> pad0 2 v = two v.
Proof.
  intro H. pose proof (range_check (fun v => beq (pad0 2 v) (two v)) 100 ltac:(lia) ltac:(vm_compute; reflexivity) v H) as C.
  apply beq_eq in C. exact C.
Qed.
Lemma pad4 v : 0 <= v < 10000 -> pad0 4 v = four v.
Proof.
  intro H. pose proof (range_check (fun v => beq (pad0 4 v) (four v)) 10000 ltac:(lia) ltac:(vm_compute; reflexivity) v H) as C.
  apply beq_eq in C. exact C.
Qed.

(** ** Calendar *)
Definition shift_year (e : Z) (dt : Z * Z * Z) : Z * Z * Z := let '(y, m, d) := dt in (y + 400 * e, m, d).
Definition eq3 (a b : Z * Z * Z) : bool :=
  let '(y, m, d) := a in let '(y', m', d') := b in (y =? y') && (m =? m') && (d =? d').
Lemma eq3_eq a b : eq3 a b = true -> a = b.
Proof.
  destruct a as [[y m] d], b as [[y' m'] d']. unfold eq3. rewrite !andb_true_iff, !Z.eqb_eq. intros [[-> ->] ->]. reflexivity.
Qed.
Definition validb (dt : Z * Z * Z) : bool :=
  let '(y, m, d) := dt in (1 <=? m) && (m <=? 12) && (1 <=? d) && (d <=? month_len y m).
Lemma validb_iff dt : validb dt = true <-> valid_day dt.
Proof. destruct dt as [[y m] d]. unfold validb, valid_day. rewrite !andb_true_iff, !Z.leb_le. lia. Qed.
Definition to_days3 (dt : Z * Z * Z) : Z := let '(y, m, d) := dt in to_days y m d.

Lemma quot_era y k : 0 < k -> Z.quot (if 0 <=? y then y else y - (k - 1)) k = y / k.
Proof.
  intro K. destruct (Z.leb_spec 0 y).
  - apply Z.quot_div_nonneg; lia.
  - pose proof (Z.quot_rem' (y - (k - 1)) k) as Q.
    pose proof (Z.rem_nonpos (y - (k - 1)) k ltac:(lia) ltac:(lia)) as R.
    pose proof (Z.rem_bound_abs (y - (k - 1)) k ltac:(lia)) as R'.
    apply Z.div_unique with (r := y - k * Z.quot (y - (k - 1)) k); lia.
Qed.
Lemma quot_nn a k : 0 <= a -> 0 < k -> Z.quot a k = a / k.
Proof. intros. apply Z.quot_div_nonneg; lia. Qed.

Lemma to_days_shift e dt : to_days3 (shift_year e dt) = to_days3 dt + 146097 * e.
Proof.
  destruct dt as [[y m] d]. unfold shift_year, to_days3, to_days. cbv zeta.
  change 399 with (400 - 1). rewrite !quot_era by lia.
  set (y' := y - _). replace (y + 400 * e - (if m <=? 2 then 1 else 0)) with (y' + e * 400) by (unfold y'; lia).
  rewrite Z.div_add by lia. set (q := y' / 400). replace (y' + e * 400 - (q + e) * 400) with (y' - q * 400) by lia. lia.
Qed.

Lemma from_days_shift e doe : 0 <= doe < 146097 ->
  from_days (doe + 146097 * e - 719468) = shift_year e (from_days (doe - 719468)).
Proof.
  intro H. unfold from_days, shift_year. cbv zeta. change 146096 with (146097 - 1). rewrite !quot_era by lia.
  replace (doe + 146097 * e - 719468 + 719468) with (doe + e * 146097) by lia.
  replace (doe - 719468 + 719468) with doe by lia.
  rewrite Z.div_add, (Z.div_small doe) by lia. replace (doe + e * 146097 - (0 + e) * 146097) with doe by lia.
  replace (doe - 0 * 146097) with doe by lia. f_equal. f_equal. lia.
Qed.

Lemma leap_shift e y : leap (y + 400 * e) = leap y.
Proof.
  unfold leap. replace (y + 400 * e) with (y + (100 * e) * 4) by lia. rewrite Z.mod_add by lia.
  replace (y + 100 * e * 4) with (y + (4 * e) * 100) by lia. rewrite Z.mod_add by lia.
  replace (y + 4 * e * 100) with (y + e * 400) by lia. rewrite Z.mod_add by lia. reflexivity.
Qed.
Lemma month_len_shift e y m : month_len (y + 400 * e) m = month_len y m.
Proof. unfold month_len. rewrite leap_shift. reflexivity. Qed.
Lemma valid_shift e dt : valid_day dt -> valid_day (shift_year e dt).
Proof. destruct dt as [[y m] d]. unfold valid_day, shift_year. rewrite month_len_shift. auto. Qed.
Lemma next_shift e dt : next_day (shift_year e dt) = shift_year e (next_day dt).
Proof.
  destruct dt as [[y m] d]. unfold next_day, shift_year. rewrite month_len_shift.
  destruct (d <? month_len y m); [reflexivity|]. destruct (m <? 12); [reflexivity|]. f_equal. f_equal. lia.
Qed.

(** Years of an era begin in March: [ystart] is their first day, [yearof] the code's formula. *)
Definition ystart (yoe : Z) : Z := 365 * yoe + Z.quot yoe 4 - Z.quot yoe 100.
Definition yearof (doe : Z) : Z := Z.quot (doe - Z.quot doe 1460 + Z.quot doe 36524 - Z.quot doe 146096) 365.
Definition ylen (yoe : Z) : Z := if leap (yoe + 1) then 366 else 365.
Definition monthday (doy : Z) : Z * Z :=
  let mp := Z.quot (5 * doy + 2) 153 in
  (if mp <? 10 then mp + 3 else mp - 9, doy - Z.quot (153 * mp + 2) 5 + 1).
Definition carry (m : Z) : Z := if m <=? 2 then 1 else 0.

Lemma from_days_0 doe : 0 <= doe < 146097 ->
  from_days (doe - 719468) =
    let (m, d) := monthday (doe - ystart (yearof doe)) in (yearof doe + carry m, m, d).
Proof.
  intro H. unfold from_days. cbv zeta. replace (doe - 719468 + 719468) with doe by lia.
  assert (Q : forall z, Z.quot (if 0 <=? z then z else z - 146096) 146097 = z / 146097)
    by (intro z; exact (quot_era z 146097 eq_refl)).
  rewrite !Q, (Z.div_small doe) by lia.
  replace (doe - 0 * 146097) with doe by lia. unfold monthday, ystart. cbv zeta. fold (yearof doe).
  replace (yearof doe + 0 * 400) with (yearof doe) by lia. reflexivity.
Qed.
Lemma yearof_mono a b : 0 <= a <= b -> b < 146097 -> yearof a <= yearof b.
Proof.
  intros H B. unfold yearof. rewrite !(quot_nn a), !(quot_nn b) by lia.
  rewrite !quot_nn by (try lia; zdm). apply Z.div_le_mono; [lia|]. zdm.
Qed.
Lemma years_checked : forallb (fun y => (yearof (ystart y) =? y) && (yearof (ystart y + ylen y - 1) =? y) &&
   (ystart y + ylen y =? (if y =? 399 then 146097 else ystart (y + 1)))) (zseq 0 400) = true.
Proof. vm_compute. reflexivity. Qed.
Lemma year_facts y : 0 <= y < 400 ->
  yearof (ystart y) = y /\ yearof (ystart y + ylen y - 1) = y /\ ystart y + ylen y = (if y =? 399 then 146097 else ystart (y + 1)).
Proof.
  intro H. pose proof (range_check _ 400 ltac:(lia) years_checked y H) as C. cbv beta in C.
  rewrite !andb_true_iff, !Z.eqb_eq in C. tauto.
Qed.
Lemma year_find n : (n <= 400)%nat -> forall doe, 0 <= doe ->
  doe < (if (n =? 400)%nat then 146097 else ystart (Z.of_nat n)) -> exists y, 0 <= y < 400 /\ ystart y <= doe < ystart y + ylen y.
Proof.
  induction n as [|n IH]; intros N doe D L.
  - cbn in L. lia.
  - destruct (Z.lt_ge_cases doe (ystart (Z.of_nat n))) as [B|B].
    + apply IH; [lia|exact D|]. replace ((n =? 400)%nat) with false by (symmetry; apply Nat.eqb_neq; lia). exact B.
    + exists (Z.of_nat n). split; [lia|]. split; [exact B|].
      destruct (year_facts (Z.of_nat n) ltac:(lia)) as (_ & _ & E). rewrite E.
      destruct (Z.eqb_spec (Z.of_nat n) 399) as [E3|E3].
      * replace (S n =? 400)%nat with true in L by (symmetry; apply Nat.eqb_eq; lia). exact L.
      * replace (S n =? 400)%nat with false in L by (symmetry; apply Nat.eqb_neq; lia).
        rewrite Nat2Z.inj_succ in L. exact L.
Qed.

Definition mlen (lp : bool) (m : Z) : Z :=
  if m =? 2 then (if lp then 29 else 28) else if (m =? 4) || (m =? 6) || (m =? 9) || (m =? 11) then 30 else 31.
Lemma month_len_mlen y m : month_len y m = mlen (leap y) m. Proof. reflexivity. Qed.
Definition next_md (lp : bool) (c m d : Z) : Z * Z * Z :=
  if d <? mlen lp m then (c, m, d + 1) else if m <? 12 then (c, m + 1, 1) else (c + 1, 1, 1).
Definition doyof (m d : Z) : Z := Z.quot (153 * (if 2 <? m then m - 3 else m + 9) + 2) 5 + d - 1.
Definition day_check (lp : bool) (doy : Z) : bool :=
  let (m, d) := monthday doy in
  (doyof m d =? doy) && (1 <=? m) && (m <=? 12) && (1 <=? d) && (d <=? mlen lp m) &&
  (let (m', d') := monthday (doy + 1) in
   if doy <? (if lp then 365 else 364) then eq3 (carry m', m', d') (next_md lp (carry m) m d)
   else (m =? 2) && (d =? mlen lp 2)).
Lemma days_checked lp : forallb (day_check lp) (zseq 0 (if lp then 366 else 365)) = true.
Proof. destruct lp; vm_compute; reflexivity. Qed.

Lemma era0_facts doe : 0 <= doe < 146097 ->
  to_days3 (from_days (doe - 719468)) = (doe - 719468) /\ valid_day (from_days (doe - 719468)) /\
  from_days (doe + 1 - 719468) = next_day (from_days (doe - 719468)).
Proof.
  intro H. destruct (year_find 400 ltac:(lia) doe ltac:(lia) ltac:(cbn [Nat.eqb]; lia)) as (y & Y & L).
  destruct (year_facts y Y) as (Y1 & Y2 & Y3).
  assert (EY : forall k, ystart y <= k < ystart y + ylen y -> yearof k = y).
  { intros k K. assert (0 <= ystart y) by (unfold ystart; rewrite !quot_nn by lia; zdm).
    assert (ystart y + ylen y <= 146097).
    { rewrite Y3. destruct (Z.eqb_spec y 399); [lia|]. unfold ystart. rewrite !quot_nn by lia. zdm. }
    pose proof (yearof_mono (ystart y) k ltac:(lia) ltac:(lia)).
    pose proof (yearof_mono k (ystart y + ylen y - 1) ltac:(lia) ltac:(lia)). lia. }
  remember (doe - ystart y) as doy eqn:DOY.
  assert (DR : 0 <= doy < Z.of_nat (if leap (y + 1) then 366%nat else 365%nat)) by (unfold ylen in L; destruct (leap (y + 1)); lia).
  assert (C : day_check (leap (y + 1)) doy = true).
  { pose proof (days_checked (leap (y + 1))) as DC. rewrite forallb_forall in DC. apply DC, zseq_in. lia. }
  assert (F : from_days (doe - 719468) = let (m, d) := monthday doy in (y + carry m, m, d)).
  { rewrite from_days_0 by exact H. rewrite (EY doe L), <- DOY. reflexivity. }
  rewrite F. unfold day_check in C. destruct (monthday doy) as [m d] eqn:MD.
  rewrite !andb_true_iff, !Z.leb_le, Z.eqb_eq in C. destruct C as [[[[[C1 C2] C3] C4] C5] C6].
  assert (ML : month_len (y + carry m) m = mlen (leap (y + 1)) m).
  { rewrite month_len_mlen. unfold carry, mlen. destruct (Z.leb_spec m 2); [reflexivity|].
    destruct (Z.eqb_spec m 2); [lia|reflexivity]. }
  split; [|split].
  - unfold to_days3, to_days. cbv zeta. fold (carry m). replace (y + carry m - carry m) with y by lia.
    change 399 with (400 - 1). rewrite quot_era by lia. rewrite (Z.div_small y) by lia.
    fold (doyof m d). rewrite C1. replace (y - 0 * 400) with y by lia. unfold ystart in DOY. lia.
  - unfold valid_day. rewrite ML. lia.
  - unfold next_day. rewrite ML. destruct (monthday (doy + 1)) as [m' d'] eqn:MD'.
    destruct (Z.ltb_spec doy (if leap (y + 1) then 365 else 364)) as [LT|GE].
    + apply eq3_eq in C6.
      assert (R : ystart y <= doe + 1 < ystart y + ylen y) by (unfold ylen; destruct (leap (y + 1)); lia).
      assert (R2 : doe + 1 < 146097).
      { destruct (Z.eqb_spec y 399); [lia|]. assert (ystart (y + 1) <= 146097) by (unfold ystart; rewrite !quot_nn by lia; zdm). lia. }
      rewrite from_days_0 by lia. rewrite (EY _ R). replace (doe + 1 - ystart y) with (doy + 1) by lia. rewrite MD'.
      unfold next_md in C6. destruct (d <? mlen (leap (y + 1)) m); [|destruct (m <? 12)];
        pose proof (f_equal (fun t => fst (fst t)) C6) as E1; pose proof (f_equal (fun t => snd (fst t)) C6) as E2;
        pose proof (f_equal snd C6) as E3; cbn [fst snd] in E1, E2, E3; rewrite E1, E2, E3; [reflexivity|reflexivity|].
      f_equal. f_equal. lia.
    + rewrite !andb_true_iff, !Z.eqb_eq in C6. destruct C6 as [-> ->]. rewrite Z.ltb_irrefl. change (2 <? 12) with true. cbn match.
      change (carry 2) with 1. change (2 + 1) with 3.
      assert (DE : doe + 1 = ystart y + ylen y) by (unfold ylen in *; destruct (leap (y + 1)); lia).
      rewrite DE, Y3. destruct (Z.eqb_spec y 399) as [->|N].
      * vm_compute. reflexivity.
      * destruct (year_facts (y + 1) ltac:(lia)) as (Q & _ & _).
        assert (0 <= ystart (y + 1) < 146097) by (unfold ystart; rewrite !quot_nn by lia; zdm).
        rewrite from_days_0 by lia. rewrite Q, Z.sub_diag. change (monthday 0) with (3, 1). cbn match. change (carry 3) with 0.
        rewrite Z.add_0_r. reflexivity.
Qed.
Lemma shift_step e dt : shift_year (e + 1) dt = shift_year e (shift_year 1 dt).
Proof. destruct dt as [[y m] d]. unfold shift_year. f_equal. f_equal. lia. Qed.
Lemma era_facts doe e : 0 <= doe < 146097 -> forall z, z = doe + 146097 * e - 719468 ->
  to_days3 (from_days z) = z /\ valid_day (from_days z) /\ from_days (z + 1) = next_day (from_days z).
Proof.
  intros B z ->.
  destruct (era0_facts doe B) as (C1 & C2 & C3).
  rewrite from_days_shift by exact B. rewrite to_days_shift, C1. split; [lia|]. split; [apply valid_shift, C2|].
  rewrite next_shift, <- C3. destruct (Z.eq_dec (doe + 1) 146097) as [E|N].
  - replace (doe + 146097 * e - 719468 + 1) with (0 + 146097 * (e + 1) - 719468) by lia.
    replace (doe + 1 - 719468) with (0 + 146097 * 1 - 719468) by lia.
    rewrite (from_days_shift (e + 1) 0), (from_days_shift 1 0) by lia. apply shift_step.
  - replace (doe + 146097 * e - 719468 + 1) with (doe + 1 + 146097 * e - 719468) by lia.
    apply from_days_shift. lia.
Qed.
Lemma from_days_facts z : to_days3 (from_days z) = z /\ valid_day (from_days z) /\ from_days (z + 1) = next_day (from_days z).
Proof.
  apply (era_facts ((z + 719468) mod 146097) ((z + 719468) / 146097)).
  - apply Z.mod_pos_bound. lia.
  - pose proof (Z.div_mod (z + 719468) 146097 ltac:(lia)). lia.
Qed.

(** [next_day] is injective on valid days: days are determined by their number *)
Lemma next_inj a b : valid_day a -> valid_day b -> next_day a = next_day b -> a = b.
Proof.
  destruct a as [[y m] d], b as [[y' m'] d']. unfold valid_day, next_day. intros [A1 A2] [B1 B2].
  destruct (Z.ltb_spec d (month_len y m)), (Z.ltb_spec d' (month_len y' m'));
    destruct (Z.ltb_spec m 12), (Z.ltb_spec m' 12); intro E;
    pose proof (f_equal (fun t => fst (fst t)) E) as E1; pose proof (f_equal (fun t => snd (fst t)) E) as E2;
    pose proof (f_equal snd E) as E3; cbn in E1, E2, E3; try (exfalso; lia).
  - subst y'. subst m'. f_equal. lia.
  - subst y'. subst m'. f_equal. lia.
  - subst y'. replace m' with m in * by lia. f_equal. lia.
  - replace y' with y in * by lia. replace m' with m in * by lia. f_equal. lia.
Qed.
Lemma civil_valid z d : civil z d -> valid_day d.
Proof.
  induction 1 as [|z d H IH|z d V H IH]; [unfold valid_day; cbn; lia| |exact V].
  destruct d as [[y m] d]. unfold valid_day, next_day in *. destruct (Z.ltb_spec d (month_len y m)); [lia|].
  destruct (Z.ltb_spec m 12).
  - split; [lia|]. split; [lia|]. unfold month_len. destruct (m + 1 =? 2); [destruct (leap y); lia|].
    destruct ((m + 1 =? 4) || (m + 1 =? 6) || (m + 1 =? 9) || (m + 1 =? 11)); lia.
  - split; [lia|]. cbn. lia.
Qed.
Lemma civil_from_days z d : civil z d -> d = from_days z.
Proof.
  induction 1 as [|z d H IH|z d V H IH].
  - vm_compute. reflexivity.
  - rewrite IH. symmetry. apply from_days_facts.
  - destruct (from_days_facts z) as (F1 & F2 & F3). apply next_inj; [exact V|exact F2|]. rewrite IH. exact F3.
Qed.
Lemma from_days_civil z : civil z (from_days z).
Proof.
  assert (P : forall n, civil (Z.of_nat n) (from_days (Z.of_nat n)) /\ civil (- Z.of_nat n) (from_days (- Z.of_nat n))).
  { induction n as [|n [I J]]; [cbn; split; apply civil_epoch|]. rewrite Nat2Z.inj_succ. split.
    - destruct (from_days_facts (Z.of_nat n)) as (_ & _ & F). unfold Z.succ. rewrite F. apply civil_next, I.
    - destruct (from_days_facts (- Z.succ (Z.of_nat n))) as (_ & V & F).
      replace (- Z.succ (Z.of_nat n) + 1) with (- Z.of_nat n) in F by lia.
      apply civil_prev; [exact V|]. rewrite <- F. replace (- Z.succ (Z.of_nat n) + 1) with (- Z.of_nat n) by lia. exact J. }
  destruct (Z.le_gt_cases 0 z).
  - rewrite <- (Z2Nat.id z) by lia. apply P.
  - replace z with (- Z.of_nat (Z.to_nat (- z))) by lia. apply P.
Qed.

(** ** Year bounds *)
Lemma days_closed y' : let e := y' / 400 in let yoe := y' - e * 400 in
  e * 146097 + (yoe * 365 + Z.quot yoe 4 - Z.quot yoe 100) = 365 * y' + y' / 4 - y' / 100 + y' / 400.
Proof. cbv zeta. rewrite !quot_nn by zdm. zdm. Qed.
Lemma to_days_lt y m d : valid_day (y, m, d) -> y <= -1 -> to_days y m d < -719528.
Proof.
  intros [M D] Y. unfold to_days. cbv zeta. change 399 with (400 - 1). rewrite quot_era by lia.
  set (y' := y - _). pose proof (days_closed y') as C. cbv zeta in C.
  assert (DM : d <= 31) by (unfold month_len in D; destruct (m =? 2); [destruct (leap y); lia|];
    destruct ((m =? 4) || (m =? 6) || (m =? 9) || (m =? 11)); lia).
  assert (K : Z.quot (153 * (if 2 <? m then m - 3 else m + 9) + 2) 5 + d - 1 <= if m <=? 2 then 367 else 305).
  { destruct (Z.ltb_spec 2 m), (Z.leb_spec m 2); try lia; rewrite quot_nn by lia; try zdm. }
  revert K. unfold y' in *. destruct (Z.leb_spec m 2); intro K; [assert (y - 1 <= -2) by lia|assert (y - 0 <= -1) by lia]; zdm.
Qed.
Lemma to_days_gt y m d : valid_day (y, m, d) -> 10000 <= y -> 2932896 < to_days y m d.
Proof.
  intros [M D] Y. unfold to_days. cbv zeta. change 399 with (400 - 1). rewrite quot_era by lia.
  set (y' := y - _). pose proof (days_closed y') as C. cbv zeta in C.
  assert (K : (if m <=? 2 then 306 else 0) <= Z.quot (153 * (if 2 <? m then m - 3 else m + 9) + 2) 5 + d - 1).
  { destruct (Z.ltb_spec 2 m), (Z.leb_spec m 2); try lia; rewrite quot_nn by lia; zdm. }
  revert K. unfold y' in *. destruct (Z.leb_spec m 2); intro K; zdm.
Qed.
Lemma year_range z y m d : from_days z = (y, m, d) -> -719528 <= z <= 2932896 -> 0 <= y < 10000.
Proof.
  intros E H. destruct (from_days_facts z) as (T & V & _). rewrite E in T, V. unfold to_days3 in T.
  destruct (Z.le_gt_cases y (-1)) as [L|L]; [pose proof (to_days_lt y m d V L); lia|].
  destruct (Z.le_gt_cases 10000 y) as [L'|L']; [pose proof (to_days_gt y m d V L'); lia|]. lia.
Qed.

(** ** Numbers *)
Lemma digit_is v : 0 <= v <= 9 -> is_digit (48 + v) = true.
Proof. intro H. unfold is_digit. apply andb_true_iff. rewrite !Z.leb_le. lia. Qed.
Lemma fix_two lo hi v r : 0 <= v < 100 ->
  parse_fix 2 lo hi (two v ++ r) = if (lo <=? v) && (v <=? hi) then Some (v, r) else None.
Proof.
  intro H. unfold parse_fix, two. cbn [app fix_len]. rewrite !digit_is by zdm.
  replace ((0 * 10 + (48 + v / 10 - 48)) * 10 + (48 + v mod 10 - 48)) with v by zdm.
  destruct (Z.ltb_spec v lo), (Z.ltb_spec hi v), (Z.leb_spec lo v), (Z.leb_spec v hi); try lia; reflexivity.
Qed.
Lemma fix_four v r : 0 <= v < 10000 -> parse_fix 4 0 9999 (four v ++ r) = Some (v, r).
Proof.
  intro H. unfold parse_fix, four, two. cbn [app fix_len]. rewrite !digit_is by zdm.
  set (w := (_ * 10 + _)). assert (E : w = v) by (unfold w; zdm). rewrite E.
  destruct (Z.ltb_spec v 0), (Z.ltb_spec 9999 v); try lia; reflexivity.
Qed.
Lemma shift_digit v r : 0 <= v <= 9 -> shift_char ((48 + v) :: r) = None.
Proof.
  intro H. unfold shift_char. destruct (Z.eqb_spec (48 + v) 43), (Z.eqb_spec (48 + v) 45), (Z.eqb_spec (48 + v) 90); try lia. reflexivity.
Qed.
