(** End to end: text written to a file and read back. *)
From Coq Require Import String.
From Verif Require Import Base TokModel WriteModel DictProofs TokProofs LexProofs RealProofs ObjSpec ObjProofs FuelProofs ParseProofs RealParse ObjPropLemmas TextModel TextSpec TextProofs.
Local Open Scope Z_scope.

Lemma text_file_round_trip cps k : scalars cps -> marked cps = false ->
  exists p t d, init_utf8 (utf8_text cps) = Ok p /\ write_text p = Ok t /\
    parse default_params (t ++ k) = Ok (Some (OStr false d), mk_tst [] k) /\
    (doc_encodes d cps \/ d = 254 :: 255 :: utf16be_text cps) /\
    get_string (from_raw d false) = Ok (utf8_text cps).
Proof.
  intros S M. destruct (text_round_trip cps S M) as (p & d & I & W & B & F & G). exists p, (write_string false d), d.
  split; [exact I|]. split; [exact W|]. split; [apply literal_strings_round_trip; exact B|]. split; [exact F|apply G].
Qed.
