(** Properties C54-C56, C58, C67: small utilities. *)
From Coq Require Import String.
From Verif Require Import Base BitLemmas TokModel WriteModel LexProofs FilterModel UtilModel UtilProofs.
Local Open Scope Z_scope.

(** ** C54 *)
(** Missing: use at full depth after errors, which is false ([C54_guard_leaks_refuted]). *)
Theorem C54_guard_partial max calls : 0 <= max < 2 ^ 32 - 1 ->
  (forall c, snd (guarded max 0 c) = true <-> max < Z.of_nat (levels c)) /\
  (Forall (fun c => Z.of_nat (levels c) <= max) calls -> guarded_all max 0 calls = (0, map (fun _ => false) calls)).
Proof. exact (fun M => conj (guard_exact max M) (guard_history max calls M)). Qed.
Print Assumptions C54_guard_partial.

Example C54_case : guarded_all 2 0 [Call [Call []; Call []]; Call []] = (0, [false; false]) /\
  guarded 2 0 (Call [Call []; Call [Call []]]) = (1, true).
Proof. split; reflexivity. Qed.

(** Every error leaves the count one higher for the rest of the thread's life: with [k] errors behind, only
    nestings of at most [max - k] levels are accepted, whatever came between. *)
Theorem C54_guard_leaks_refuted : forall max, 0 < max < 2 ^ 32 - 1 ->
  guarded_all max 0 [deep (Z.to_nat max - 1)] = (0, [false]) /\
  guarded_all max 0 [deep (Z.to_nat max); deep (Z.to_nat max - 1)] = (2, [true; true]).
Proof. exact (fun max M => proj2 (guard_leak max M)). Qed.
Print Assumptions C54_guard_leaks_refuted.

Theorem C54_shrinking_limit max d c : 0 <= max < 2 ^ 32 - 1 -> 0 <= d <= max ->
  guarded max d c = if Z.of_nat (levels c) <=? max - d then (d, false) else (d + 1, true).
Proof. exact (guard_shrinks max d c). Qed.
Print Assumptions C54_shrinking_limit.

(** PdfDeclarationsPrivate.h:211 "set to 0 to disable recursion check" *)
Theorem C54_zero_limit_refuted : forall c, snd (guarded 0 0 c) = true.
Proof. exact guard_zero. Qed.
Print Assumptions C54_zero_limit_refuted.

(** ** C55 *)
Theorem C55_multiplication_overflow a b : 0 <= a < 2 ^ 64 -> 0 <= b < 2 ^ 64 ->
  (mul_overflow a b = true <-> 2 ^ 64 <= a * b).
Proof. exact (mul_overflow_spec a b). Qed.
Print Assumptions C55_multiplication_overflow.

Example C55_case : mul_overflow (2 ^ 32) (2 ^ 32) = true /\ mul_overflow (2 ^ 32) (2 ^ 32 - 1) = false /\
  mul_overflow 3 6148914691236517205 = false /\ mul_overflow 3 6148914691236517206 = true.
Proof. vm_compute. repeat split; reflexivity. Qed.

(** ** C56 *)
(** Value of a big-endian byte string *)
Definition be_value (l : list Z) : Z := fold_left (fun v b => v * 256 + b) l 0.

Theorem C56_unsigned_round_trip little v rest :
  (0 <= v < 2 ^ 32 -> read_u32be little (write_u32be little v ++ rest) = Ok v) /\
  (0 <= v < 2 ^ 16 -> read_u16be little (write_u16be little v ++ rest) = Ok v).
Proof. exact (conj (u32_back little v rest) (u16_back little v rest)). Qed.
Print Assumptions C56_unsigned_round_trip.

Theorem C56_signed_round_trip little v rest :
  (- 2 ^ 31 <= v < 2 ^ 31 -> read_i32be little (write_i32be little v ++ rest) = Ok v) /\
  (- 2 ^ 15 <= v < 2 ^ 15 -> read_i16be little (write_i16be little v ++ rest) = Ok v).
Proof. exact (conj (i32_back little v rest) (i16_back little v rest)). Qed.
Print Assumptions C56_signed_round_trip.

(** On a little-endian machine the bytes are the big-endian form, also for reading *)
Theorem C56_big_endian v :
  (0 <= v < 2 ^ 32 -> length (write_u32be true v) = 4%nat /\ bytes_ok (write_u32be true v) /\ be_value (write_u32be true v) = v) /\
  (0 <= v < 2 ^ 16 -> length (write_u16be true v) = 2%nat /\ bytes_ok (write_u16be true v) /\ be_value (write_u16be true v) = v).
Proof. exact (conj (u32_form v) (u16_form v)). Qed.
Print Assumptions C56_big_endian.

Theorem C56_reading a b c d rest : is_byte a -> is_byte b -> is_byte c -> is_byte d ->
  read_u32be true (a :: b :: c :: d :: rest) = Ok (be_value [a; b; c; d]) /\
  read_u16be true (a :: b :: rest) = Ok (be_value [a; b]).
Proof. exact (be_reading a b c d rest). Qed.
Print Assumptions C56_reading.

(** On a big-endian machine the bytes come out the other way round *)
Theorem C56_big_endian_host_refuted : exists v, 0 <= v < 2 ^ 16 /\ be_value (write_u16be false v) <> v.
Proof. exact be_host_refuted. Qed.
Print Assumptions C56_big_endian_host_refuted.

Example C56_case : write_i16be true (-2) = [255; 254] /\ read_i16be true [255; 254] = Ok (-2) /\ write_u32be true 66051 = [0; 1; 2; 3].
Proof. vm_compute. repeat split; reflexivity. Qed.

(** ** C58 *)
Theorem C58_filters t s : name_to_filter s = Ok t <-> filter_to_name t = s.
Proof. exact (filters_inverse t s). Qed.
Print Assumptions C58_filters.
Theorem C58_short_filters t s : short_to_filter s = Ok t <-> filter_to_short t = Ok s.
Proof. exact (filters_short_inverse t s). Qed.
Print Assumptions C58_short_filters.
(** Every version is the one its digits say *)
Theorem C58_versions v s : (get_version s = v /\ v <> VUnknown <-> version_name v = Ok s) /\
  (v <> VUnknown -> exists major minor, version_digits v = (major, minor) /\ version_name v = Ok [48 + major; 46; 48 + minor]).
Proof. exact (conj (versions_inverse v s) (versions_digits v)). Qed.
Print Assumptions C58_versions.
Theorem C58_annotations a s : (name_annot s = Ok a <-> annot_name a = Ok s) /\ (a <> AUnknown -> exists n, annot_name a = Ok n).
Proof. exact (conj (annots_inverse a s) (annots_named a)). Qed.
Print Assumptions C58_annotations.
(** Missing: CalRGB, which has no name in either direction. *)
Theorem C58_colour_spaces_partial c s : (name_cspace s = Ok c <-> cspace_name c = Ok s) /\
  (c <> CSUnknown -> c <> CSCalRGB -> exists n, cspace_name c = Ok n).
Proof. exact (conj (cspaces_inverse c s) (cspaces_named c)). Qed.
Print Assumptions C58_colour_spaces_partial.
Theorem C58_calrgb_refuted : (forall s, cspace_name CSCalRGB <> Ok s) /\ name_cspace (bs "CalRGB") = Err EInvalidDataType.
Proof. exact calrgb_refuted. Qed.
Print Assumptions C58_calrgb_refuted.

Example C58_case : name_to_filter (bs "DCTDecode") = Ok FDct /\ short_to_filter (bs "Fl") = Ok FFlate /\
  get_version (bs "1.7") = V17 /\ name_annot (bs "3D") = Ok AModel3D /\ name_cspace (bs "ICCBased") = Ok CSICC.
Proof. vm_compute. repeat split; reflexivity. Qed.

(** ** C67 *)
(** Missing: values whose text is longer than digits10 of the type, for which it is false. *)
Theorem C67_integer_text_partial t v :
  - 10 ^ (Z.of_nat (digits10 t) - 1) < v < 10 ^ Z.of_nat (digits10 t) ->
  format_int t v = Ok (dec_signed v) /\ (int64_ok v = true -> from_chars_int (dec_signed v) = Some v).
Proof. exact (fun H => conj (format_fits t v H) (from_chars_dec v)). Qed.
Print Assumptions C67_integer_text_partial.
(** For every integer type there are values of the type whose text is not produced *)
Theorem C67_integer_text_refuted : forall t, exists v, ity_min t <= v <= ity_max t /\ format_int t v = UB.
Proof. exact format_refuted. Qed.
Print Assumptions C67_integer_text_refuted.

Example C67_case : format_int U8 99 = Ok (bs "99") /\ format_int U8 100 = UB /\ format_int S32 (-99999999) = Ok (bs "-99999999").
Proof. vm_compute. repeat split; reflexivity. Qed.
