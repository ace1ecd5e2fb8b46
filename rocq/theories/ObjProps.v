(** Properties C01-C07: reading back what was written, and reading anything at all.
    [default_params] are the library defaults: 4095-byte tokens, references read, 256 guard levels.
    [reads 4095 s k]: reader state [s] stands for the text [k] (some of its first tokens may have been fetched). *)
From Coq Require Import String.
From Verif Require Import Base TokModel WriteModel DictProofs TokProofs LexProofs RealProofs ObjSpec ObjProofs FuelProofs ParseProofs RealParse ObjPropLemmas.
Local Open Scope Z_scope.

(** ** C01 *)
Theorem C01_names_round_trip n k : bytes_ok n -> ~ In 0 n ->
  exists t, write_name n = Ok (47 :: t) /\
    Forall (fun c => is_regular c = true /\ 32 < c < 125) t /\
    ((length t <= 4095)%nat -> stops k ->
       exists s, parse default_params (47 :: t ++ k) = Ok (Some (OName n), s) /\ reads 4095 s k).
Proof. exact (names_round_trip n k). Qed.
Print Assumptions C01_names_round_trip.

Example C01_case : exists t, write_name (bs "A B#(" ++ [200; 1]) = Ok (47 :: t) /\ t = bs "A#20B#23#28#C8#01" /\
  parse default_params (47 :: t ++ bs "/Next") = Ok (Some (OName (bs "A B#(" ++ [200; 1])), mk_tst [] (bs "/Next")).
Proof. eexists. repeat split; vm_compute; reflexivity. Qed.

Theorem C01_nul_refused n : In 0 n -> write_name n = Err EInvalidName.
Proof. exact (names_nul n). Qed.
Print Assumptions C01_nul_refused.

(** The token buffer limits names: the full claim (no length bound) is false. *)
Theorem C01_long_names_refuted : exists n t, bytes_ok n /\ ~ In 0 n /\ write_name n = Ok t /\
  forall s, parse default_params (t ++ [32]) <> Ok (Some (OName n), s).
Proof. exact long_names_refuted. Qed.
Print Assumptions C01_long_names_refuted.

(** ** C02 *)
Theorem C02_literal_strings_round_trip x k : bytes_ok x ->
  parse default_params (write_string false x ++ k) = Ok (Some (OStr false x), mk_tst [] k).
Proof. exact (literal_strings_round_trip x k). Qed.
Print Assumptions C02_literal_strings_round_trip.

Example C02_case : parse default_params (write_string false (bs "a(b)\c" ++ [0; 13; 10; 255]) ++ bs ")(x")
  = Ok (Some (OStr false (bs "a(b)\c" ++ [0; 13; 10; 255])), mk_tst [] (bs ")(x")).
Proof. vm_compute. reflexivity. Qed.

(** ** C03 *)
Theorem C03_hex_strings_round_trip x k : bytes_ok x ->
  parse default_params (write_string true x ++ k) = Ok (Some (OStr true x), mk_tst [] k).
Proof. exact (hex_strings_round_trip x k). Qed.
Print Assumptions C03_hex_strings_round_trip.

Theorem C03_hex_strings_conform w k : ~ In 62 w -> match w with c :: _ => c <> 60 | [] => True end ->
  parse default_params (60 :: w ++ 62 :: k) = Ok (Some (OStr true (hex_meaning w)), mk_tst [] k).
Proof. exact (hex_strings_conform w k). Qed.
Print Assumptions C03_hex_strings_conform.

Example C03_case : parse default_params (bs "<48 65 6c 7>rest") = Ok (Some (OStr true [72; 101; 108; 112]), mk_tst [] (bs "rest"))
  /\ hex_meaning (bs "48 65 6c 7") = [72; 101; 108; 112].
Proof. split; vm_compute; reflexivity. Qed.

(** ** C04 *)
Theorem C04_integers_round_trip fl n k : - 2 ^ 63 <= n < 2 ^ 63 -> stops k -> num_safe 4095 k ->
  exists t s, write fl (ONum n) = Ok t /\ parse default_params (t ++ k) = Ok (Some (ONum n), s) /\ reads 4095 s k.
Proof. exact (integers_round_trip fl n k). Qed.
Print Assumptions C04_integers_round_trip.

(** A delimiter or the keyword "endobj" may always follow. *)
Theorem C04_followed_by c r k : In c [40; 41; 91; 93; 47; 123; 125] -> num_safe 4095 (c :: r) /\ stops (c :: r) /\
  num_safe 4095 (bs " endobj " ++ k) /\ stops (bs " endobj " ++ k).
Proof. exact (safe_followers c r k). Qed.
Print Assumptions C04_followed_by.

Example C04_case : match parse default_params (bs " -9223372036854775808/K") with
  Ok (o, _) => o = Some (ONum (- 2 ^ 63)) | _ => False end.
Proof. vm_compute. reflexivity. Qed.

(** A number right before another number at the end of the data is read, but the second one is lost. *)
Theorem C04_second_number_lost_refuted : exists s, parse default_params (bs "1 2") = Ok (Some (ONum 1), s) /\
  next_token 4095 s = None.
Proof. exact second_number_lost. Qed.
Print Assumptions C04_second_number_lost_refuted.

(** ** C05 *)
Theorem C05_objects_round_trip fl o k : flags_ok fl -> wf_obj default_params o -> may_follow default_params o k ->
  (S (inner o) <= 256)%nat ->
  exists t s, write fl o = Ok t /\ parse default_params (t ++ k) = Ok (Some o, s) /\ reads 4095 s k.
Proof. exact (objects_round_trip fl o k). Qed.
Print Assumptions C05_objects_round_trip.

(** Arrays and dictionaries may be followed by anything; anything may be followed by "\nendobj\n". *)
Theorem C05_endobj fl o k : flags_ok fl -> wf_obj default_params o -> (S (inner o) <= 256)%nat ->
  exists t s s', write fl o = Ok t /\ parse default_params (t ++ [10] ++ bs "endobj" ++ [10] ++ k) = Ok (Some o, s) /\
    next_token 4095 s = Some ((TLit, bs "endobj"), s') /\ reads 4095 s' (10 :: k).
Proof. exact (objects_endobj fl o k). Qed.
Print Assumptions C05_endobj.

Example C05_case_flags : flags_ok (mk_wf false false) /\ flags_ok (mk_wf true false) /\ flags_ok (mk_wf true true).
Proof. repeat split; (left; reflexivity) || (right; reflexivity). Qed.
Example C05_case_wf : wf_obj default_params sample_obj /\ (S (inner sample_obj) <= 256)%nat.
Proof. exact C05_sample_wf. Qed.
Example C05_case : match write (mk_wf false false) sample_obj with
  | Ok t => match parse default_params (t ++ bs " endobj") with Ok (Some o, _) => o = sample_obj | _ => False end
  | _ => False end.
Proof. vm_compute. reflexivity. Qed.

(** The flags hypothesis is needed: without separators neighbouring numbers merge. *)
Theorem C05_noinline_refuted : exists t s, write (mk_wf false true) (OArr [ONum 1; ONum 2]) = Ok t /\
  parse default_params t = Ok (Some (OArr [ONum 12]), s).
Proof. exact noinline_merges. Qed.
Print Assumptions C05_noinline_refuted.

(** ** C06 *)
Theorem C06_reals_partial fl m d k : Z.abs m < (2 ^ 63 - 1) * 10 ^ Z.of_nat d -> stops k -> num_safe 4095 k ->
  exists t o s, write fl (OReal m d) = Ok t /\ parse default_params (t ++ k) = Ok (Some o, s) /\ reads 4095 s k /\ near_real m d o.
Proof. exact (reals_near fl m d k). Qed.
Print Assumptions C06_reals_partial.

Theorem C06_reals_exact fl m d k : (1 <= d <= 6)%nat -> m mod 10 <> 0 -> Z.abs m < 10 ^ 4000 -> stops k ->
  exists t s, write fl (OReal m d) = Ok t /\ parse default_params (t ++ k) = Ok (Some (OReal m d), s) /\ reads 4095 s k.
Proof. exact (reals_exact fl m d k). Qed.
Print Assumptions C06_reals_exact.

Example C06_case : match parse default_params (bs " -1.25 ") with Ok (o, _) => o = Some (OReal (-125) 2) | _ => False end.
Proof. vm_compute. reflexivity. Qed.

(** 1.0 comes back as the integer 1, and 10^20 as an error. *)
Theorem C06_reals_refuted :
  (exists t s, write (mk_wf false false) (OReal 10 1) = Ok t /\ parse default_params (t ++ [32]) = Ok (Some (ONum 1), s)) /\
  (exists t, write (mk_wf false false) (OReal (10 ^ 21) 1) = Ok t /\ parse default_params (t ++ [32]) = Err ENoNumber).
Proof. exact reals_refuted. Qed.
Print Assumptions C06_reals_refuted.

(** ** C07 *)
Theorem C07_parsing_terminates P inp : (exists r, parse P inp = Ok r) \/ (exists e, parse P inp = Err e).
Proof. exact (parsing_terminates P inp). Qed.
Print Assumptions C07_parsing_terminates.

Theorem C07_more_fuel_same P inp fuel : (3 * length inp + 3 <= fuel)%nat ->
  read_next P fuel 0 (mk_tst [] inp) = parse P inp.
Proof. exact (parse_any_fuel P inp fuel). Qed.
Print Assumptions C07_more_fuel_same.

Theorem C07_progress P inp v s : parse P inp = Ok (v, s) ->
  (length (tin s) + length (tq s) <= length inp)%nat /\
  (v <> None -> (length (tin s) + length (tq s) < length inp)%nat).
Proof. exact (parse_progress P inp v s). Qed.
Print Assumptions C07_progress.

(** Only arrays are held to the limit ... *)
Theorem C07_array_nesting_partial P inp o s : parse P inp = Ok (Some o, s) -> (array_nesting o <= rmax P)%nat.
Proof. exact (parse_array_nesting P inp o s). Qed.
Print Assumptions C07_array_nesting_partial.

Example C07_case : match parse (mk_rp 4095 true 3) (bs "[[[]]]") with Ok _ => True | _ => False end /\
  parse (mk_rp 4095 true 3) (bs "[[[1]]]") = Err EInvalidXRef.
Proof. split; vm_compute; auto. Qed.

(** ... dictionaries nest without limit: for every depth there is a text that is read to that depth. *)
Theorem C07_nesting_refuted n : exists inp o s, parse default_params inp = Ok (Some o, s) /\ nesting o = S n.
Proof. exact (dict_nesting_unbounded n). Qed.
Print Assumptions C07_nesting_refuted.
