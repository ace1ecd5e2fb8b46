(** RC4 streams with the cache of the last key: src/pdfmm/base/PdfEncrypt.cpp. *)
From Verif Require Import Base.
Local Open Scope Z_scope.

Definition byte_at (l : list Z) (i : Z) : Z := nth (Z.to_nat i) l 0.
Fixpoint put_nat (l : list Z) (i : nat) (v : Z) : list Z :=
  match l, i with [], _ => [] | _ :: r, O => v :: r | x :: r, S i' => x :: put_nat r i' v end.
Definition put (l : list Z) (i v : Z) : list Z := put_nat l (Z.to_nat i) v.

(** 152-163: the key schedule; [n] rounds are left, the next one is [i] *)
Fixpoint ksa (n : nat) (i j : Z) (key tab : list Z) : list Z :=
  match n with
  | O => tab
  | S n' =>
    let t := byte_at tab i in
    let j := (j + t + byte_at key (i mod Z.of_nat (length key))) mod 256 in
    let tab := put tab i (byte_at tab j) in
    ksa n' (i + 1) j key (put tab j t)
  end.
Definition start_table : list Z := map Z.of_nat (seq 0 256).
Definition schedule (key : list Z) : list Z := ksa 256 0 0 key start_table.

(** Members m_rc4, m_a, m_b *)
Record rc4 := mk_rc4 { tab : list Z; ra : Z; rb : Z }.
(** m_rc4key (16 bytes) and m_rc4last of PdfEncryptMD5Base, PdfEncrypt.h:578-579 *)
Record cache := mk_cache { ckey : list Z; clast : list Z }.
(** 143-172: the constructor. The key has at most 16 bytes; the first of them are compared with the cache. *)
Definition new_stream (c : cache) (key : list Z) : rc4 * cache :=
  if beq key (firstn (length key) (ckey c)) then (mk_rc4 (clast c) 0 0, c)
  else let t := schedule key in (mk_rc4 t 0 0, mk_cache (key ++ skipn (length key) (ckey c)) t).
(** 185-204 Encrypt *)
Fixpoint crypt (s : rc4) (data : list Z) : list Z * rc4 :=
  match data with
  | [] => ([], s)
  | c :: data' =>
    let a := (ra s + 1) mod 256 in
    let t := byte_at (tab s) a in
    let b := (rb s + t) mod 256 in
    let m := put (tab s) a (byte_at (tab s) b) in
    let m := put m b t in
    let k := byte_at m ((byte_at m a + byte_at m b) mod 256) in
    let (r, s') := crypt (mk_rc4 m a b) data' in
    (Z.lxor c k :: r, s')
  end.
(** 905-936 RC4, made with OpenSSL, on a string: a fresh state; OpenSSL refuses an empty key *)
Definition rc4_string (key data : list Z) : res (list Z) :=
  match key with [] => Err EInternalLogic | _ => Ok (fst (crypt (mk_rc4 (schedule key) 0 0) data)) end.

(** Streams open at the same time. 219-241 PdfRC4OutputStream and 246-272 PdfRC4InputStream both pass data through the state made
    by their constructor. A step opens a stream with a key (numbered in order), writes a block to a stream, or reads from the
    device behind it at most [n] bytes. *)
Record stream := mk_stream { skey : list Z; sst : rc4; sdev : list Z; sleft : Z }.
Record env := mk_env { ecache : cache; estreams : list stream }.
Inductive op := OOpen (key dev : list Z) (len : Z) | OWrite (k : nat) (block : list Z) | ORead (k : nat) (n : Z).
(** What comes out of a step: the stream and the bytes written to the other device or returned *)
Definition set_stream (l : list stream) (k : nat) (s : stream) : list stream := firstn k l ++ s :: skipn (S k) l.
Definition do_op (e : env) (o : op) : (nat * list Z) * env :=
  match o with
  | OOpen key dev len => let (s, c) := new_stream (ecache e) key in ((O, []), mk_env c (estreams e ++ [mk_stream key s dev len]))
  | OWrite k block =>
    match nth_error (estreams e) k with
    | None => ((k, []), e)
    | Some s => let (out, st) := crypt (sst s) block in ((k, out), mk_env (ecache e) (set_stream (estreams e) k (mk_stream (skey s) st (sdev s) (sleft s))))
    end
  | ORead k n =>
    match nth_error (estreams e) k with
    | None => ((k, []), e)
    | Some s =>
      let inp := firstn (Z.to_nat (Z.min n (sleft s))) (sdev s) in
      let (out, st) := crypt (sst s) inp in
      ((k, out), mk_env (ecache e) (set_stream (estreams e) k (mk_stream (skey s) st (skipn (length inp) (sdev s)) (sleft s - Z.of_nat (length inp)))))
    end
  end.
Fixpoint do_ops (e : env) (l : list op) : list (nat * list Z) * env :=
  match l with
  | [] => ([], e)
  | o :: l' => let (x, e) := do_op e o in let (r, e) := do_ops e l' in (x :: r, e)
  end.
(** 618-621, 1072-1074, 1120-1123: nothing encrypted so far *)
Definition fresh_cache : cache := mk_cache (repeat 0 16) (repeat 0 256).
