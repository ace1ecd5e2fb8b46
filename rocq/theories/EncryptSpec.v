(** The standard security handler, ISO 32000-1, 7.6.3, revisions 2 to 4, for any hash function *)
From Verif Require Import Base TokModel Rc4Spec EncryptModel.
Local Open Scope Z_scope.

Definition std_pad (pw : list Z) : list Z :=
  firstn 32 (pw ++ [40; 191; 78; 94; 78; 117; 138; 65; 100; 0; 78; 86; 255; 250; 1; 8; 46; 46; 0; 182; 208; 104; 62; 128; 47; 12; 169; 254; 100; 83; 105; 122]).
Definition again (md5 : list Z -> list Z) (n : nat) (d : list Z) : list Z := Nat.iter 50 (fun d => md5 (firstn n d)) d.
Definition mix (d : list Z) (i : Z) : list Z := map (fun b => Z.lxor b i) d.
Definition twenty : list Z := [0; 1; 2; 3; 4; 5; 6; 7; 8; 9; 10; 11; 12; 13; 14; 15; 16; 17; 18; 19].
(** Algorithm 3: the O entry. As other programs do, only n bytes are hashed again. *)
Definition std_owner_secret (md5 : list Z -> list Z) (r : Z) (n : nat) (owner : list Z) : list Z :=
  if r =? 2 then firstn 5 (md5 (std_pad owner)) else firstn n (again md5 n (md5 (std_pad owner))).
Definition std_owner (md5 : list Z -> list Z) (r : Z) (n : nat) (user owner : list Z) : list Z :=
  let k := std_owner_secret md5 r n owner in
  if r =? 2 then rc4_from k 0 (std_pad user) else fold_left (fun x i => rc4_from (mix k i) 0 x) twenty (std_pad user).
(** Algorithm 7: the user password recovered from O *)
Definition std_unlock (md5 : list Z -> list Z) (r : Z) (n : nat) (o owner : list Z) : list Z :=
  let k := std_owner_secret md5 r n owner in
  if r =? 2 then rc4_from k 0 o else fold_left (fun x i => rc4_from (mix k i) 0 x) (rev twenty) o.
(** Algorithm 2: the key, from a padded password *)
Definition std_key (md5 : list Z -> list Z) (r : Z) (n : nat) (pad o perms id : list Z) (meta : bool) : list Z :=
  let d := md5 (pad ++ o ++ perms ++ id ++ (if meta then [] else [255; 255; 255; 255])) in
  firstn n (if r =? 2 then d else again md5 n d).
(** Algorithms 4 and 5: the U entry *)
Definition std_user (md5 : list Z -> list Z) (r : Z) (key id : list Z) : list Z :=
  if r =? 2 then rc4_from key 0 (std_pad [])
  else fold_left (fun x i => rc4_from (mix key i) 0 x) twenty (md5 (std_pad [] ++ id)) ++ repeat 0 16.
(** Four bytes, the lowest first *)
Definition std_perms (p : Z) : list Z := [p mod 256; p / 256 mod 256; p / 65536 mod 256; p / 16777216 mod 256].

(** An object with consistent settings: the revision of the algorithm, and the same key length in bits and bytes *)
Definition ready (e : enc) : Prop :=
  ekl e = 8 * kl e /\ 1 <= kl e <= 16 /\ - 2 ^ 31 <= pv e < 2 ^ 31 /\
  match alg e with
  | RC4V1 => kl e = 5 /\ rv e = 2 /\ meta e = true
  | RC4V2 => rv e = 3 /\ meta e = true
  | AESV2 => kl e = 16 /\ rv e = 4
  end.
(** The test for a padded user password: as many bytes of U as the key has agree *)
Definition passes (md5 : list Z -> list Z) (e : enc) (o u id pad : list Z) : Prop :=
  let n := Z.to_nat (kl e) in firstn n (std_user md5 (rv e) (std_key md5 (rv e) n pad o (std_perms (u32 (pv e))) id (meta e)) id) = firstn n u.
(** The key in use *)
Definition file_key (e : enc) : list Z := firstn (Z.to_nat (kl e)) (ekey e).
