(** Theorems on AES strings and streams, for any block cipher *)
From Coq Require Import String.
From Verif Require Import Base TokModel AesModel AesSpec AesProofs AesPropLemmas.
Local Open Scope Z_scope.

(** ** C88 *)
(** A string or stream is encrypted as the standard says, with the length the library calculates *)
Theorem C88_encrypt E D iv data : cipher E D -> length iv = 16%nat -> Z.of_nat (length data) < 2 ^ 63 -> exists c, encrypt_to E iv data = Ok c /\ encrypted E iv data c /\
  Z.of_nat (length c) = stream_length (Z.of_nat (length data)).
Proof.
  intros C I B. destruct (encrypt_ok E D C iv data I B) as (c & A & X). exists c. split; [exact A|]. split; [exact X|]. rewrite (encrypted_length E D C iv data c I X), stream_length_ok by lia.
  rewrite Nat2Z.inj_add, Nat2Z.inj_mul, Nat2Z.inj_div. reflexivity.
Qed.
Print Assumptions C88_encrypt.
(** A string encrypted by any program that follows the standard is decrypted to its data *)
Theorem C88_string E D iv data c : cipher E D -> length iv = 16%nat -> Z.of_nat (length data) < 2 ^ 63 -> encrypted E iv data c -> decrypt_to D c = Ok data.
Proof. intros C. exact (decrypt_ok E D C iv data c). Qed.
Print Assumptions C88_string.
(** Any bytes in place of an encrypted string give data or an error *)
Theorem C88_any D view : Z.of_nat (length view) < 2 ^ 63 -> (exists d, decrypt_to D view = Ok d) \/ decrypt_to D view = Err EInternalLogic.
Proof. exact (decrypt_total D view). Qed.
Print Assumptions C88_any.
(** An encrypted stream of up to 4112 bytes is loaded, whatever the uninitialised variable holds and whatever follows in the file *)
Theorem C88_load_partial E D iv data c more eof : cipher E D -> length iv = 16%nat -> Z.of_nat (length c) <= 4112 -> encrypted E iv data c ->
  load_stream D (c ++ more) (Z.of_nat (length c)) eof = Ok data.
Proof. intros C. exact (load_small E D C iv data c more eof). Qed.
Print Assumptions C88_load_partial.
(** So is a longer one where the variable happens to be false at the start *)
Theorem C88_load_lucky_partial E D iv data c more : cipher E D -> length iv = 16%nat -> Z.of_nat (length data) < 2 ^ 62 -> encrypted E iv data c ->
  load_stream D (c ++ more) (Z.of_nat (length c)) (Some false) = Ok data.
Proof. intros C. exact (load_ok E D C iv data c more). Qed.
Print Assumptions C88_load_lucky_partial.
(** Loading any longer stream uses the variable before it is set *)
Theorem C88_load_refuted E D iv data c more : cipher E D -> length iv = 16%nat -> Z.of_nat (length data) < 2 ^ 62 -> 4112 < Z.of_nat (length c) -> encrypted E iv data c ->
  load_stream D (c ++ more) (Z.of_nat (length c)) None = UB.
Proof. intros C. exact (load_large E D C iv data c more). Qed.
Print Assumptions C88_load_refuted.
(** So does a stream whose Length is 1 to 15 *)
Theorem C88_short_refuted D d n : 1 <= n <= 15 -> (32 <= length d)%nat -> load_stream D d n None = UB.
Proof. exact (load_short D d n). Qed.
Print Assumptions C88_short_refuted.

(** A cipher for the cases *)
Definition toy (b : list Z) : list Z := map (fun x => Z.lxor x 90) (rev b).
Lemma toy_cipher : cipher toy toy.
Proof.
  intros b L. split; [unfold toy; rewrite map_length, rev_length; exact L|]. unfold toy. rewrite <- map_rev, rev_involutive, map_map. rewrite <- (map_id b) at 2. apply map_ext. intros x. rewrite Z.lxor_assoc, Z.lxor_nilpotent. apply Z.lxor_0_r.
Qed.
Definition iv0 : list Z := bs "initial vector 1".
Definition secret (data : list Z) : list Z := match encrypt_to toy iv0 data with Ok c => c | _ => [] end.
Fixpoint reads (s : ain) (lens : list Z) : res (list Z) :=
  match lens with [] => Ok [] | n :: r => do x <- read_buffer toy s n; do y <- reads (snd x) r; Ok (fst (fst x) ++ y) end.
(** Reading by ten bytes overflows the buffer of the caller *)
Theorem C88_small_reads_refuted : cipher toy toy /\ reads (aes_open (secret (bs "The secret text of 32 characters")) 64) [10; 10] = UB.
Proof. split; [exact toy_cipher|vm_compute; reflexivity]. Qed.
Print Assumptions C88_small_reads_refuted.
(** The rest that is kept for the next reads always starts at its first byte *)
Theorem C88_split_rest_refuted : cipher toy toy /\ reads (aes_open (secret (bs "The secret text: twelve more")) 48) [16; 16; 5; 7] = Ok (bs "The secret text: twel twelve") /\
  reads (aes_open (secret (bs "The secret text: twelve more")) 48) [16; 16; 12] = Ok (bs "The secret text: twelve more").
Proof. split; [exact toy_cipher|split; vm_compute; reflexivity]. Qed.
Print Assumptions C88_split_rest_refuted.
Example C88_case : let c := secret (bs "The secret text: twelve more") in
  length c = 48%nat /\ decrypt_to toy c = Ok (bs "The secret text: twelve more") /\ load_stream toy (c ++ bs " endstream") 48 None = Ok (bs "The secret text: twelve more") /\
  decrypt_to toy (secret (bs "sixteen bytes xx")) = Ok (bs "sixteen bytes xx") /\ decrypt_to toy (bs "short") = Ok [] /\ decrypt_to toy (c ++ [1]) = Err EInternalLogic.
Proof. vm_compute. repeat split. Qed.
