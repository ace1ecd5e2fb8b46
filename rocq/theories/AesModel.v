(** AES strings and streams: src/pdfmm/base/PdfEncrypt.cpp. The block cipher of OpenSSL under the key of the object is a pair of functions
    [E] and [D] on blocks of 16 bytes; its chaining (CBC), buffering and padding, as EVP_EncryptUpdate, EVP_EncryptFinal_ex,
    EVP_DecryptUpdate and EVP_DecryptFinal_ex do it, are defined here. The key has 16 bytes (842-872: always so with AESV2). *)
From Verif Require Import Base.
Local Open Scope Z_scope.

Definition xors (a b : list Z) : list Z := map (fun p => Z.lxor (fst p) (snd p)) (combine a b).
(** 1197-1229 BaseEncrypt: [k] blocks *)
Fixpoint cbc (E : list Z -> list Z) (k : nat) (prev data : list Z) : list Z :=
  match k with O => [] | S k' => let c := E (xors (firstn 16 data) prev) in c ++ cbc E k' c (skipn 16 data) end.
Definition base_encrypt (E : list Z -> list Z) (iv data : list Z) : list Z :=
  let n := (16 - length data mod 16)%nat in cbc E (length data / 16 + 1) iv (data ++ repeat (Z.of_nat n) n).
(** 1363-1371 CalculateStreamLength, with size_t *)
Definition stream_length (n : Z) : Z :=
  let r := u64 (Z.land (u64 (n + 15)) (u64 (-16)) + 16) in if n mod 16 =? 0 then u64 (r + 16) else r.
(** 1885-1890 EncryptTo with 1294-1303 Encrypt: the output has the calculated size, writing more is undefined; the vector [iv] is given *)
Definition encrypt_to (E : list Z -> list Z) (iv data : list Z) : res (list Z) :=
  let size := stream_length (Z.of_nat (length data)) in
  let out := iv ++ base_encrypt E iv data in
  if size <? Z.of_nat (length out) then UB else Ok (out ++ repeat 0 (Z.to_nat size - length out)).

(** The state of a decryption: the block before, and bytes not yet turned into output. The last complete block is held back, as
    it may be the padding. *)
Record ctx := mk_ctx { cprev : list Z; pend : list Z }.
Fixpoint dec_blocks (D : list Z -> list Z) (k : nat) (prev buf : list Z) : list Z * list Z :=
  match k with
  | O => ([], prev)
  | S k' => let c := firstn 16 buf in let (r, p) := dec_blocks D k' c (skipn 16 buf) in (xors (D c) prev ++ r, p)
  end.
Definition update (D : list Z -> list Z) (c : ctx) (inp : list Z) : list Z * ctx :=
  let buf := pend c ++ inp in
  let k := ((length buf - 1) / 16)%nat in
  let (out, p) := dec_blocks D k (cprev c) buf in
  (out, mk_ctx p (skipn (16 * k) buf)).
Definition final (D : list Z -> list Z) (c : ctx) : res (list Z) :=
  if Nat.eqb (length (pend c)) 16 then
    let b := xors (D (pend c)) (cprev c) in
    let n := last b 0 in
    if (n <? 1) || (16 <? n) then Err EInternalLogic
    else if forallb (fun x => x =? n) (skipn (16 - Z.to_nat n) b) then Ok (firstn (16 - Z.to_nat n) b) else Err EInternalLogic
  else Err EInternalLogic.
(** 1892-1903 DecryptTo with 1305-1324 Decrypt and 1172-1195 BaseDecrypt. The size of the buffer is computed with size_t; a write behind
    its end is undefined. *)
Definition decrypt_to (D : list Z -> list Z) (view : list Z) : res (list Z) :=
  let n := Z.of_nat (length view) in
  let len := u64 (n - 16) in
  let room := u64 (len + 16 - len mod 16) in
  if n <=? 16 then Ok []
  else if negb ((n - 16) mod 16 =? 0) then Err EInternalLogic
  else
    let (out, c) := update D (mk_ctx (firstn 16 view) []) (skipn 16 view) in
    do last <- final D c;
    if room <? Z.of_nat (length (out ++ last)) then UB else Ok (out ++ last).

(** ** PdfAESInputStream, 272-389 *)
(** The device and what is left of it; m_inputLen; m_inputEof; m_init; m_ctx; m_tempBuffer; m_drainLeft *)
Record ain := mk_ain { dev : list Z; left : Z; ieof : bool; init : bool; cx : ctx; temp : list Z; drain : Z }.
(** 278-290: as created *)
Definition aes_open (d : list Z) (len : Z) : ain := mk_ain d len false true (mk_ctx [] []) [] (2 ^ 64 - 1).
(** vector::resize *)
Definition resize (l : list Z) (n : Z) : list Z := firstn (Z.to_nat n) (l ++ repeat 0 (Z.to_nat n)).
(** Bytes stored at the start of a buffer *)
Definition store (out buf : list Z) : list Z := out ++ skipn (length out) buf.
(** 373-380 DrainBuffer: the bytes, whether eof is assigned (only ever true), the state *)
Definition drain_buffer (s : ain) (len : Z) (out : list Z) : list Z * option bool * ain :=
  let n := Z.min (len - Z.of_nat (length out)) (drain s) in
  let s' := mk_ain (dev s) (left s) (ieof s) (init s) (cx s) (temp s) (drain s - n) in
  (out ++ firstn (Z.to_nat n) (temp s), if drain s - n =? 0 then Some true else None, s').
(** 299-380 readBuffer. The end of the device is noticed by the read that reaches it. PDFMM_ASSERT does nothing in release builds:
    copying more than [len] bytes is undefined. *)
Definition read_buffer (D : list Z -> list Z) (s : ain) (len : Z) : res (list Z * option bool * ain) :=
  if ieof s then Ok (drain_buffer s len [])
  else
    do s <- (if init s then
               if (length (dev s) <? 16)%nat then Err EUnexpectedEOF
               else Ok (mk_ain (skipn 16 (dev s)) (u64 (left s - 16)) false false (mk_ctx (firstn 16 (dev s)) []) (temp s) (drain s))
             else Ok s);
    let inp := firstn (Z.to_nat (Z.min len (left s))) (dev s) in
    let d := skipn (length inp) (dev s) in
    let l := left s - Z.of_nat (length inp) in
    let (out, c) := update D (cx s) inp in
    let t := store out (resize (temp s) (len + 16)) in
    if len <? Z.of_nat (length out) then UB
    else if (l =? 0) || match d with [] => true | _ => false end then
      do f <- final D c;
      Ok (drain_buffer (mk_ain d l true false c (store f t) (Z.of_nat (length f))) len out)
    else Ok (out, None, mk_ain d l false false c t (drain s)).
(** PdfInputStream.cpp:89-104 CopyTo with a size, as PdfObjectStream.cpp:369-374 InitData and PdfParserObject.cpp:238-239 use it.
    [eof] starts uninitialised (None), its use is then undefined *)
Fixpoint copy_to (fuel : nat) (D : list Z -> list Z) (s : ain) (size : Z) (eof : option bool) : res (list Z) :=
  match fuel with
  | O => Fuel
  | S f =>
    do r <- read_buffer D s (Z.min 4096 size);
    let '(out, set, s) := r in
    let eof := match set with Some b => Some b | None => eof end in
    let size := size - Z.of_nat (length out) in
    if size =? 0 then Ok out
    else
      match eof with
      | None => UB
      | Some true => Ok out
      | Some false => do rest <- copy_to f D s size eof; Ok (out ++ rest)
      end
  end.
(** A stream of [size] bytes in a file is loaded *)
Definition load_stream (D : list Z -> list Z) (d : list Z) (size : Z) (eof : option bool) : res (list Z) :=
  copy_to (S (length d)) D (aes_open d size) size eof.
