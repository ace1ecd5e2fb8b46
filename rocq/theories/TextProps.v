(** Properties C44, C45, C57, C66, C68, C69: Unicode text. [utf8_text cps] is the UTF-8 form of the
    characters [cps] (TextSpec.v). *)
From Coq Require Import String.
From Verif Require Import Base TokModel WriteModel DictProofs TokProofs LexProofs RealProofs ObjSpec ObjProofs FuelProofs ParseProofs RealParse ObjPropLemmas TextModel TextSpec TextProofs TextPropLemmas.
Local Open Scope Z_scope.

(** ** C44 *)
(** Missing: byte 0x16, for which it is false. *)
Theorem C44_round_trip_partial d cps : doc_encodes d cps -> Forall (fun b => b <> 22) d ->
  (exists same, doc_to_utf8 d = Ok (utf8_text cps, same)) /\ utf8_to_doc (utf8_text cps) = Ok d.
Proof. exact (doc_round_trip d cps). Qed.
Print Assumptions C44_round_trip_partial.
(** Missing: U+0016, a character of the table that is refused. *)
Theorem C44_accepts_partial cps : scalars cps ->
  ((exists d, utf8_to_doc (utf8_text cps) = Ok d) <-> Forall (fun cp => doc_char cp /\ cp <> 22) cps) /\
  (utf8_to_doc (utf8_text cps) = Err EInvalidHandle <-> ~ Forall (fun cp => doc_char cp /\ cp <> 22) cps).
Proof. exact (doc_accepts cps). Qed.
Print Assumptions C44_accepts_partial.
Theorem C44_byte_22_refuted : exists d, bytes_ok d /\ (exists cps, doc_encodes d cps) /\
  forall t same, doc_to_utf8 d = Ok (t, same) -> utf8_to_doc t <> Ok d.
Proof. exact doc_22_refuted. Qed.
Print Assumptions C44_byte_22_refuted.

Example C44_case : doc_to_utf8 [65; 160; 233] = Ok ([65; 226; 130; 172; 195; 169], false) /\
  utf8_to_doc [65; 226; 130; 172; 195; 169] = Ok [65; 160; 233] /\ doc_encodes [65; 160; 233] [65; 8364; 233].
Proof. split; [vm_compute; reflexivity|]. split; [vm_compute; reflexivity|]. repeat constructor; lia. Qed.

(** ** C45 *)
(** Missing: texts of PDFDocEncoding characters that start like a byte order mark ([marked]), for which it is
    false. The text is written as a literal string, parsed back, and evaluated; what is written is the
    PDFDocEncoding of the text or its UTF-16BE with the mark. *)
Theorem C45_text_round_trip_partial cps k : scalars cps -> marked cps = false ->
  exists p t d, init_utf8 (utf8_text cps) = Ok p /\ write_text p = Ok t /\
    parse default_params (t ++ k) = Ok (Some (OStr false d), mk_tst [] k) /\
    (doc_encodes d cps \/ d = 254 :: 255 :: utf16be_text cps) /\
    get_string (from_raw d false) = Ok (utf8_text cps).
Proof. exact (text_file_round_trip cps k). Qed.
Print Assumptions C45_text_round_trip_partial.
(** Strings of other writers *)
Theorem C45_reading cps hex : scalars cps ->
  get_string (from_raw (254 :: 255 :: utf16be_text cps) hex) = Ok (utf8_text cps) /\
  get_string (from_raw (239 :: 187 :: 191 :: utf8_text cps) hex) = Ok (utf8_text cps) /\
  (forall d, doc_encodes d cps -> Forall (fun b => b <> 22) d -> marked d = false ->
     get_string (from_raw d hex) = Ok (utf8_text cps)).
Proof. exact (fun S => conj (get_be cps hex S) (conj (get_8 (utf8_text cps) hex) (fun d => get_doc d cps hex))). Qed.
Print Assumptions C45_reading.
Theorem C45_marked_refuted l : In l [[254; 255; 97]; [255; 254; 97; 98]; [239; 187; 191; 233]] -> scalars l /\
  exists p d, init_utf8 (utf8_text l) = Ok p /\ string_data p = Ok d /\ doc_encodes d l /\
    forall hex, get_string (from_raw d hex) <> Ok (utf8_text l).
Proof. exact (marked_refuted l). Qed.
Print Assumptions C45_marked_refuted.

Example C45_case : init_utf8 (utf8_text [97; 128512]) = Ok (mk_pstr SUnicode [97; 240; 159; 152; 128] false) /\
  write_text (mk_pstr SUnicode [97; 240; 159; 152; 128] false) = Ok ([40; 254; 255; 0; 97; 216; 61; 222; 0] ++ bs ")") /\
  marked [97; 128512] = false.
Proof. split; [vm_compute; reflexivity|]. split; vm_compute; reflexivity. Qed.

(** ** C57 *)
(** Missing: more than one keyword, for which it is false. *)
Theorem C57_keywords_partial cps : scalars cps ->
  (exists ks, keywords_list (utf8_text cps) = Ok ks /\ concat ks = utf8_text cps /\ Forall (fun k => k <> []) ks) /\
  (cps <> [] -> Forall (fun cp => cp <> 13 /\ cp <> 10) cps ->
     keywords_list (keywords_string [utf8_text cps]) = Ok [utf8_text cps]).
Proof. exact (fun S => conj (kw_list cps S) (kw_single cps S)). Qed.
Print Assumptions C57_keywords_partial.
Theorem C57_keywords_refuted : keywords_list (keywords_string [bs "a"; bs "b"]) = Ok [bs "a" ++ [13]; [10]; bs "b"].
Proof. exact kw_refuted. Qed.
Print Assumptions C57_keywords_refuted.
Example C57_case : keywords_list (keywords_string [[195; 169; 32; 120]]) = Ok [[195; 169; 32; 120]].
Proof. vm_compute. reflexivity. Qed.

(** ** C66 *)
(** Missing: strings that were read and not evaluated yet, for which it is false. *)
Theorem C66_comparison_partial a b :
  (str_ne a b = negb (str_eq a b)) /\
  (valid_text a = true -> valid_text b = true -> (str_eq a b = true <-> get_string a = get_string b)).
Proof. exact (conj (str_ne_neg a b) (str_eq_evaluated a b)). Qed.
Print Assumptions C66_comparison_partial.
(** the answer changes when the text of one operand is looked at *)
Theorem C66_evaluation_refuted : exists a b a',
  evaluate a = Ok a' /\ get_string a = get_string b /\ str_eq a b = false /\ str_eq a' b = true.
Proof. exact compare_refuted. Qed.
Print Assumptions C66_evaluation_refuted.
Theorem C66_different_texts_refuted : exists a b, str_eq a b = true /\ get_string a <> get_string b.
Proof. exact compare_wrong_true. Qed.
Print Assumptions C66_different_texts_refuted.
Example C66_case : str_eq (mk_pstr SAscii (bs "x") true) (mk_pstr SUnicode (bs "x") false) = true.
Proof. reflexivity. Qed.

(** ** C68 *)
(** Missing: the right answer, see [C68_coincidence_refuted]. *)
Theorem C68_coincidence_partial l : bytes_ok l -> exists a, coincident l = Ok a.
Proof. exact (coincident_bounds l). Qed.
Print Assumptions C68_coincidence_partial.
Theorem C68_coincidence_refuted : exists l, bytes_ok l /\ doc_to_utf8 l = Ok (l, true) /\ coincident l = Ok false.
Proof. exact coincident_refuted. Qed.
Print Assumptions C68_coincidence_refuted.
Example C68_case : coincident [0; 1; 2] = Ok true /\ coincident (bs "ab") = Ok false.
Proof. split; vm_compute; reflexivity. Qed.

(** ** C69 *)
Theorem C69_utf8_exact l cps : bytes_ok l -> (utf8_points l = Ok cps <-> scalars cps /\ l = utf8_text cps).
Proof. exact (points_exact l cps). Qed.
Print Assumptions C69_utf8_exact.
Theorem C69_utf16_round_trip cps : scalars cps ->
  utf8to16 (utf8_text cps) = Ok (flat_map utf16_char cps) /\ utf16to8 (flat_map utf16_char cps) = Ok (utf8_text cps).
Proof. exact (fun S => conj (utf8to16_text cps S) (utf16to8_text cps S)). Qed.
Print Assumptions C69_utf16_round_trip.
Example C69_case : utf8_points [240; 159; 152; 128; 65] = Ok [128512; 65] /\ utf8_points [192; 128] = Err EInvalidEncoding /\
  utf8_points [237; 160; 128] = Err EInvalidEncoding.
Proof. split; [|split]; vm_compute; reflexivity. Qed.
