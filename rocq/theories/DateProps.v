(** C17, C18 and C70: dates. *)
From Coq Require Import String.
From Verif Require Import Base TokModel WriteModel DateModel DateSpec DateProofs DatePropLemmas.
Local Open Scope Z_scope.

(** ** C17: dates survive writing and reading *)
(** Partial: offsets of 60 hours and more are excluded. The bounds are 0000-01-01T00:00:00 and
    9999-12-31T23:59:59 in the date's own zone. *)
Theorem C17_round_trip_partial secs off :
  -62167219200 <= secs + 60 * match off with Some o => o | None => 0 end <= 253402300799 ->
  match off with Some o => Z.abs o <= 3599 | None => True end ->
  try_parse (date_text false (mk_date secs off)) = Some (mk_date secs off) /\
  try_parse_w3c (date_text true (mk_date secs off)) = Some (mk_date secs off).
Proof. exact (round_trip secs off). Qed.
Print Assumptions C17_round_trip_partial.

(** The text shows the Gregorian day and the time of day. *)
Theorem C17_text dt z y m d h mi s :
  d_secs dt + 60 * match d_off dt with Some o => o | None => 0 end = z * 86400 + h * 3600 + mi * 60 + s ->
  0 <= h <= 23 -> 0 <= mi <= 59 -> 0 <= s <= 59 -> civil z (y, m, d) -> 0 <= y < 10000 ->
  date_text false dt = (bs "D:" ++ four y ++ two m ++ two d ++ two h ++ two mi ++ two s) ++ date_offset false (d_off dt) /\
  date_text true dt = (four y ++ [45] ++ two m ++ [45] ++ two d ++ [84] ++ two h ++ [58] ++ two mi ++ [58] ++ two s) ++ date_offset true (d_off dt).
Proof. intros E H MI S C Y. exact (conj (written false dt z y m d h mi s E H MI S C Y) (written true dt z y m d h mi s E H MI S C Y)). Qed.
Print Assumptions C17_text.

(** Every day number is a calendar day. *)
Theorem C17_calendar z d : civil z d <-> d = from_days z.
Proof. exact (conj (civil_from_days z d) (fun E => eq_ind_r (civil z) (from_days_civil z) E)). Qed.
Print Assumptions C17_calendar.

Theorem C17_offset_refuted : exists secs off,
  -62167219200 <= secs + 60 * off <= 253402300799 /\
  try_parse (date_text false (mk_date secs (Some off))) <> Some (mk_date secs (Some off)).
Proof. exists 0, 3601. split; [lia|]. vm_compute. discriminate. Qed.
Print Assumptions C17_offset_refuted.

Example C17_case :
  date_text false (mk_date 951827400 (Some (-210))) = bs "D:20000229090000-03'30'" /\
  date_text true (mk_date 951827400 (Some 60)) = bs "2000-02-29T13:30:00+01:00" /\
  try_parse (bs "D:20000229090000-03'30'") = Some (mk_date 951827400 (Some (-210))) /\
  next_day (1999, 12, 31) = (2000, 1, 1) /\ next_day (1900, 2, 28) = (1900, 3, 1).
Proof. vm_compute. auto. Qed.

(** ** C18: text that is not a date is refused *)
(** Partial: for texts of exactly fourteen digits. *)
Theorem C18_digits_partial pre y m d h mi s : pre = bs "D:" \/ pre = [] ->
  0 <= y < 10000 -> 0 <= m < 100 -> 0 <= d < 100 -> 0 <= h < 100 -> 0 <= mi < 100 -> 0 <= s < 100 ->
  try_parse (pre ++ four y ++ two m ++ two d ++ two h ++ two mi ++ two s) <> None <->
  1 <= m <= 12 /\ 1 <= d <= 31 /\ h <= 23 /\ mi <= 59 /\ s <= 59.
Proof. exact (digits_accepted pre y m d h mi s). Qed.
Print Assumptions C18_digits_partial.

(** Accepted although not dates: nothing at all, short numbers, 31 February, any text after the seconds, a zone
    of 99 hours followed by anything. *)
Theorem C18_accepts_refuted :
  try_parse (bs "D:") <> None /\ try_parse (bs "D:2") <> None /\ try_parse (bs "D:20200") <> None /\
  try_parse (bs "D:20200231000000") <> None /\ try_parse (bs "D:20200101000000 and more") <> None /\
  try_parse (bs "D:20200101000000+99zz") <> None /\ try_parse_w3c (bs "2020-01-01T00:00:00 and more") <> None.
Proof. vm_compute. repeat (split; [discriminate|]). discriminate. Qed.
Print Assumptions C18_accepts_refuted.

Example C18_case :
  try_parse (bs "D:20201301000000") = None /\ try_parse (bs "D:20200101240000") = None /\
  try_parse (bs "D:20200101000060") = None /\ try_parse (bs "hello") = None /\
  try_parse (bs "20200101000000") <> None.
Proof. vm_compute. do 4 (split; [reflexivity|]). discriminate. Qed.

(** ** C70: a conforming date means the instant the standard gives it *)
(** Partial: dates that stop after the year or the month are excluded. *)
Theorem C70_full_partial pre y m d h mi s o t z : pre = bs "D:" \/ pre = [] -> civil z (y, m, d) -> 0 <= y <= 9999 ->
  0 <= h <= 23 -> 0 <= mi <= 59 -> 0 <= s <= 59 -> pdf_zone o t ->
  try_parse (pre ++ four y ++ two m ++ two d ++ two h ++ two mi ++ two s ++ t) =
    Some (mk_date (z * 86400 + h * 3600 + mi * 60 + s - 60 * match o with Some o => o | None => 0 end) o).
Proof. exact (conforming_instant pre y m d h mi s o t z). Qed.
Print Assumptions C70_full_partial.

Theorem C70_no_seconds_partial pre y m d rest o t z : pre = bs "D:" \/ pre = [] -> civil z (y, m, d) -> 0 <= y <= 9999 -> pdf_zone o t ->
  (rest = [] \/ (exists h, 0 <= h <= 23 /\ rest = [h]) \/ (exists h mi, 0 <= h <= 23 /\ 0 <= mi <= 59 /\ rest = [h; mi])) ->
  try_parse (pre ++ four y ++ two m ++ two d ++ concat (map two rest) ++ t) =
    Some (mk_date (z * 86400 + nth 0 rest 0 * 3600 + nth 1 rest 0 * 60 - 60 * match o with Some o => o | None => 0 end) o).
Proof. exact (truncated_instant pre y m d rest o t z). Qed.
Print Assumptions C70_no_seconds_partial.

(** The default of a missing month or day is 1; the code uses 0: "D:2020" is read as 30 November 2019. *)
Theorem C70_year_refuted : exists z z',
  civil z (2020, 1, 1) /\ civil z' (2019, 11, 30) /\ z <> z' /\ try_parse (bs "D:2020") = Some (mk_date (z' * 86400) None).
Proof.
  exists 18262, 18230. split; [exact (from_days_civil 18262)|]. split; [exact (from_days_civil 18230)|].
  split; [discriminate|]. vm_compute. reflexivity.
Qed.
Print Assumptions C70_year_refuted.

Example C70_case :
  try_parse (bs "D:199812231952-08'00'") = Some (mk_date 914471520 (Some (-480))) /\
  try_parse (bs "19700102") = Some (mk_date 86400 None) /\ pdf_zone (Some (-480)) (bs "-08'00'").
Proof.
  split; [vm_compute; reflexivity|]. split; [vm_compute; reflexivity|].
  right. exists 8, 0. split; [lia|]. split; [lia|]. exists 45. split; [right; auto|]. left. reflexivity.
Qed.
