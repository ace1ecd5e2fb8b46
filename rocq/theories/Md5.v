(** MD5 (RFC 1321). OpenSSL computes it for the library; theorems hold for any hash function with results of 16 bytes, this one
    is used where a result depends on the values. *)
From Coq Require Import String.
From Verif Require Import Base.
Local Open Scope Z_scope.

Definition sines : list Z := [
  3614090360; 3905402710; 606105819; 3250441966; 4118548399; 1200080426; 2821735955; 4249261313;
  1770035416; 2336552879; 4294925233; 2304563134; 1804603682; 4254626195; 2792965006; 1236535329;
  4129170786; 3225465664; 643717713; 3921069994; 3593408605; 38016083; 3634488961; 3889429448;
  568446438; 3275163606; 4107603335; 1163531501; 2850285829; 4243563512; 1735328473; 2368359562;
  4294588738; 2272392833; 1839030562; 4259657740; 2763975236; 1272893353; 4139469664; 3200236656;
  681279174; 3936430074; 3572445317; 76029189; 3654602809; 3873151461; 530742520; 3299628645;
  4096336452; 1126891415; 2878612391; 4237533241; 1700485571; 2399980690; 4293915773; 2240044497;
  1873313359; 4264355552; 2734768916; 1309151649; 4149444226; 3174756917; 718787259; 3951481745].
Definition shifts : list Z := concat (map (fun r => concat (repeat r 4)) [[7; 12; 17; 22]; [5; 9; 14; 20]; [4; 11; 16; 23]; [6; 10; 15; 21]]).
Definition w32 (x : Z) : Z := x mod 2 ^ 32.
Definition rotl (x n : Z) : Z := Z.lor (w32 (Z.shiftl x n)) (Z.shiftr x (32 - n)).
Definition not32 (x : Z) : Z := 2 ^ 32 - 1 - x.
Definition le_word (l : list Z) : Z := nth 0 l 0 + 256 * (nth 1 l 0 + 256 * (nth 2 l 0 + 256 * nth 3 l 0)).
Fixpoint groups (n : nat) (k : nat) (l : list Z) : list (list Z) :=
  match n with O => [] | S n' => firstn k l :: groups n' k (skipn k l) end.
Definition le_bytes (n : nat) (x : Z) : list Z := map (fun i => Z.shiftr x (8 * Z.of_nat i) mod 256) (seq 0 n).
Definition md5_pad (l : list Z) : list Z :=
  let n := Z.of_nat (length l) in
  l ++ 128 :: repeat 0 (Z.to_nat ((55 - n) mod 64)) ++ le_bytes 8 (8 * n).
Definition md5_round (m : list Z) (s : Z * Z * Z * Z) (x : nat * (Z * Z)) : Z * Z * Z * Z :=
  let '(a, b, c, d) := s in
  let '(i, (k, sh)) := x in
  let '(f, g) :=
    match (i / 16)%nat with
    | O => (Z.lor (Z.land b c) (Z.land (not32 b) d), i)
    | 1%nat => (Z.lor (Z.land d b) (Z.land (not32 d) c), Nat.modulo (5 * i + 1) 16)
    | 2%nat => (Z.lxor b (Z.lxor c d), Nat.modulo (3 * i + 5) 16)
    | _ => (Z.lxor c (Z.lor b (not32 d)), Nat.modulo (7 * i) 16)
    end in
  (d, w32 (b + rotl (w32 (f + a + k + nth g m 0)) sh), b, c).
Definition md5_block (s : Z * Z * Z * Z) (block : list Z) : Z * Z * Z * Z :=
  let m := map le_word (groups 16 4 block) in
  let '(a, b, c, d) := s in
  let '(a', b', c', d') := fold_left (md5_round m) (combine (seq 0 64) (combine sines shifts)) s in
  (w32 (a + a'), w32 (b + b'), w32 (c + c'), w32 (d + d')).
Definition md5 (l : list Z) : list Z :=
  let p := md5_pad l in
  let '(a, b, c, d) := fold_left md5_block (groups (length p / 64) 64 p) (1732584193, 4023233417, 2562383102, 271733878) in
  concat (map (le_bytes 4) [a; b; c; d]).
Lemma md5_length l : length (md5 l) = 16%nat.
Proof. unfold md5. destruct (fold_left md5_block _ _) as [[[a b] c] d]. reflexivity. Qed.
Example md5_empty : md5 [] = [212; 29; 140; 217; 143; 0; 178; 4; 233; 128; 9; 152; 236; 248; 66; 126].
Proof. vm_compute. reflexivity. Qed.
Example md5_text : md5 (bs "12345678901234567890123456789012345678901234567890123456789012345678901234567890") =
  [87; 237; 244; 162; 43; 227; 201; 85; 172; 73; 218; 46; 33; 7; 182; 122].
Proof. vm_compute. reflexivity. Qed.
