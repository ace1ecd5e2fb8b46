(** Theorems on RC4 streams and strings *)
From Coq Require Import String.
From Verif Require Import Base TokModel Rc4Model Rc4Spec Rc4Proofs Rc4PropLemmas EncryptModel EncryptSpec EncryptProofs EncryptPropLemmas Md5.
Local Open Scope Z_scope.

(** ** C50 *)
(** What comes out of a stream is RC4 of what was put into it under its own key, whatever streams were opened and used before and between,
    and however the data was split *)
Theorem C50_history_partial L l k key : (1 <= L <= 16)%nat -> keys_ok L l -> opened k l = Some key ->
  out_of k (fst (do_ops (mk_env fresh_cache []) l)) = rc4_from key 0 (inputs k k l).
Proof. exact (streams_history L l k key). Qed.
Print Assumptions C50_history_partial.
(** A stream that reads what another wrote returns the written data, as far as it is read *)
Theorem C50_roundtrip_partial L l1 l2 k1 key more : (1 <= L <= 16)%nat -> opened k1 l1 = Some key ->
  let c := out_of k1 (fst (do_ops (mk_env fresh_cache []) l1)) in
  let l := l1 ++ OOpen key (c ++ more) (Z.of_nat (length c)) :: l2 in
  keys_ok L l -> only_reads (opens l1) l2 ->
  out_of (opens l1) (fst (do_ops (mk_env fresh_cache []) l)) = firstn (asked (opens l1) l2) (inputs k1 k1 l1).
Proof. exact (roundtrip L l1 l2 k1 key more). Qed.
Print Assumptions C50_roundtrip_partial.
(** Strings: encryption succeeds, keeps the length and is undone by a second application *)
Theorem C50_string md5 e n g data : (forall l, length (md5 l) = 16%nat) -> 1 <= kl e <= 16 ->
  exists k c, object_key md5 e n g = Ok k /\ crypt_string md5 e n g data = Ok c /\ c = rc4_from k 0 data /\ length c = length data /\ crypt_string md5 e n g c = Ok data.
Proof. intros M B. exact (string_twice md5 M e n g data B). Qed.
Print Assumptions C50_string.
(** The cache starts with zero bytes as its key: the first stream with a key of zeros is not encrypted, a later one is, so that
    what one object wrote another does not read back *)
Theorem C50_zero_key_refuted : forall L data, (1 <= L <= 16)%nat ->
  out_of 0 (fst (do_ops (mk_env fresh_cache []) [OOpen (repeat 0 L) [] 0; OWrite 0 data])) = data.
Proof. exact zero_key_plain. Qed.
Print Assumptions C50_zero_key_refuted.
Theorem C50_zero_key_reread_refuted : exists l1 l2 key data,
  opened 0 l1 = Some key /\ inputs 0 0 l1 = data /\ asked 1 l2 = length data /\
  let c := out_of 0 (fst (do_ops (mk_env fresh_cache []) l1)) in
  out_of 1 (fst (do_ops (mk_env fresh_cache []) ([OOpen [1; 2; 3; 4; 5] [] 0; OOpen key c (Z.of_nat (length c))] ++ l2))) <> data.
Proof.
  exists [OOpen (repeat 0 5) [] 0; OWrite 0 (bs "Plain")], [ORead 1 5], (repeat 0 5), (bs "Plain"). split; [reflexivity|]. split; [reflexivity|]. split; [reflexivity|]. vm_compute. intros H. discriminate H.
Qed.
Print Assumptions C50_zero_key_reread_refuted.

(** Published test vectors; two streams written in turns, then both read in pieces *)
Example C50_vector_case : rc4_string (bs "Key") (bs "Plaintext") = Ok [187; 243; 22; 232; 217; 64; 175; 10; 211] /\ rc4_from (bs "Wiki") 0 (bs "pedia") = [16; 33; 191; 4; 32].
Proof. split; vm_compute; reflexivity. Qed.
Example C50_case :
  let w := [OOpen (bs "Key") [] 0; OWrite 0 (bs "Plain"); OOpen (bs "Jay") [] 0; OWrite 1 (bs "pe"); OWrite 0 (bs "text"); OWrite 1 (bs "dia")] in
  let o := fst (do_ops (mk_env fresh_cache []) w) in
  let r := fst (do_ops (mk_env fresh_cache []) (w ++ [OOpen (bs "Key") (out_of 0 o ++ bs "xyz") 9; OOpen (bs "Jay") (out_of 1 o) 5; ORead 2 3; ORead 3 10; ORead 2 10])) in
  out_of 0 o = [187; 243; 22; 232; 217; 64; 175; 10; 211] /\ out_of 2 r = bs "Plaintext" /\ out_of 3 r = bs "pedia".
Proof. vm_compute. repeat split. Qed.
Example C50_string_case : (do c <- crypt_string md5 (create [] [] 0 RC4V1 40) 7 0 (bs "text"); crypt_string md5 (create [] [] 0 RC4V1 40) 7 0 c) = Ok (bs "text").
Proof. vm_compute. reflexivity. Qed.
