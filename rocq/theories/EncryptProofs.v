(** Passwords: the keys are those of the standard *)
From Coq Require Import String.
From Verif Require Import Base ChainProofs TokModel OwnModel Rc4Model Rc4Spec Rc4Proofs EncryptModel EncryptSpec.
Local Open Scope Z_scope.

Lemma pad_std pw : pad_password pw = std_pad pw.
Proof.
  unfold pad_password, std_pad. fold padding. rewrite firstn_app. destruct (Nat.le_gt_cases (length pw) 32) as [H|H].
  - rewrite Nat.min_l by lia. rewrite firstn_all, (firstn_all2 pw) by lia. reflexivity.
  - rewrite Nat.min_r by lia. replace (32 - length pw)%nat with 0%nat by lia. reflexivity.
Qed.
Lemma std_pad_length pw : length (std_pad pw) = 32%nat.
Proof. unfold std_pad. rewrite firstn_length, app_length. cbn [length]. lia. Qed.
Lemma rehash_ok md5 n : 0 <= n <= 16 -> forall t d, rehash md5 t n d = Ok (Nat.iter t (fun d => md5 (firstn (Z.to_nat n) d)) d).
Proof.
  intros N. assert (P : forall d, part n d = Ok (firstn (Z.to_nat n) d)). { intros d. unfold part. destruct (Z.ltb_spec n 0); [lia|]. destruct (Z.ltb_spec 16 n); [lia|]. reflexivity. }
  induction t as [|t IH]; intros d; [reflexivity|]. cbn [rehash]. rewrite P. cbn [bind]. rewrite IH. f_equal. clear. induction t as [|t IH]; [reflexivity|]. cbn [Nat.iter nat_rect]. f_equal. f_equal. exact IH.
Qed.
Lemma part_ok n d : 0 <= n <= 16 -> part n d = Ok (firstn (Z.to_nat n) d).
Proof. intros N. unfold part. destruct (Z.ltb_spec n 0); [lia|]. destruct (Z.ltb_spec 16 n); [lia|]. reflexivity. Qed.
Lemma rounds_ok d : d <> [] -> forall l x, rounds d l x = Ok (fold_left (fun x i => rc4_from (mix d i) 0 x) l x).
Proof.
  intros D. induction l as [|i l IH]; intros x; [reflexivity|]. cbn [rounds fold_left]. rewrite rc4_string_ok by (destruct d; [congruence|discriminate]). cbn [bind]. apply IH.
Qed.
Lemma fold_undo d : forall l x, fold_left (fun x i => rc4_from (mix d i) 0 x) (rev l) (fold_left (fun x i => rc4_from (mix d i) 0 x) l x) = x.
Proof. induction l as [|i l IH]; intros x; [reflexivity|]. cbn [rev fold_left]. rewrite fold_left_app. cbn [fold_left]. rewrite IH. apply rc4_twice. Qed.
Lemma fold_length d : forall l x, length (fold_left (fun x i => rc4_from (mix d i) 0 x) l x) = length x.
Proof. induction l as [|i l IH]; intros x; [reflexivity|]. cbn [fold_left]. rewrite IH. apply rc4_from_length. Qed.
Lemma unlock_owner md5 r n user owner : std_unlock md5 r n (std_owner md5 r n user owner) owner = std_pad user.
Proof. unfold std_unlock, std_owner. cbv zeta. destruct (r =? 2); [apply rc4_twice|apply fold_undo]. Qed.
Lemma owner_length md5 r n user owner : length (std_owner md5 r n user owner) = 32%nat.
Proof. unfold std_owner. cbv zeta. destruct (r =? 2); [rewrite rc4_from_length|rewrite fold_length]; apply std_pad_length. Qed.
Lemma perms_std p : perm_bytes p = std_perms (u32 p).
Proof. unfold perm_bytes, std_perms. cbn [map]. rewrite !Z.shiftr_div_pow2 by lia. cbn [Z.mul]. rewrite Z.div_1_r. reflexivity. Qed.

Section Hash.
  Context (md5 : list Z -> list Z) (md5_16 : forall l, length (md5 l) = 16%nat).
  Lemma iter_length n t d : length d = 16%nat -> length (Nat.iter t (fun d => md5 (firstn n d)) d) = 16%nat.
  Proof. intros D. destruct t as [|t]; [exact D|]. apply md5_16. Qed.
  Lemma key_length r n pad o p id m : (n <= 16)%nat -> length (std_key md5 r n pad o p id m) = n.
  Proof. intros N. unfold std_key. cbv zeta. rewrite firstn_length. destruct (r =? 2); [rewrite md5_16; lia|]. unfold again. rewrite iter_length by apply md5_16. lia. Qed.
  Lemma user_length r k id : length (std_user md5 r k id) = 32%nat.
  Proof. unfold std_user. destruct (r =? 2); [rewrite rc4_from_length; apply std_pad_length|]. rewrite app_length, fold_length, md5_16. reflexivity. Qed.
  Lemma not_nil {A} (l : list A) n : length l = n -> (1 <= n)%nat -> l <> [].
  Proof. intros L N ->. cbn in L. lia. Qed.
  Lemma owner_key_ok user owner n r : 1 <= n <= 16 -> r = 2 \/ r = 3 \/ r = 4 ->
    owner_key md5 (std_pad user) (pad_password owner) n r false = Ok (std_owner md5 r (Z.to_nat n) user owner).
  Proof.
    intros N R. unfold owner_key, std_owner, std_owner_secret. rewrite pad_std. destruct R as [->|R].
    - cbn [Z.eqb orb Pos.eqb]. apply rc4_string_ok. apply (not_nil _ 5); [rewrite firstn_length, md5_16; reflexivity|lia].
    - assert (E : (r =? 3) || (r =? 4) = true /\ (r =? 2) = false) by (destruct R as [->| ->]; split; reflexivity). destruct E as [-> ->]. rewrite rehash_ok by lia. cbn [bind]. rewrite part_ok by lia. cbn [bind]. rewrite rounds_ok; [reflexivity|]. apply (not_nil _ (Z.to_nat n)); [rewrite firstn_length, iter_length by apply md5_16; lia|lia].
  Qed.
  Lemma owner_unlock_ok o owner n r : 1 <= n <= 16 -> r = 2 \/ r = 3 \/ r = 4 ->
    owner_key md5 o (pad_password owner) n r true = Ok (std_unlock md5 r (Z.to_nat n) o owner).
  Proof.
    intros N R. unfold owner_key, std_unlock, std_owner_secret. rewrite pad_std. destruct R as [->|R].
    - cbn [Z.eqb orb Pos.eqb]. apply rc4_string_ok. apply (not_nil _ 5); [rewrite firstn_length, md5_16; reflexivity|lia].
    - assert (E : (r =? 3) || (r =? 4) = true /\ (r =? 2) = false) by (destruct R as [->| ->]; split; reflexivity). destruct E as [-> ->]. rewrite rehash_ok by lia. cbn [bind]. rewrite part_ok by lia. cbn [bind]. rewrite rounds_ok; [reflexivity|]. apply (not_nil _ (Z.to_nat n)); [rewrite firstn_length, iter_length by apply md5_16; lia|lia].
  Qed.
  Definition keyed (e : enc) (pad : list Z) : list Z := std_key md5 (rv e) (Z.to_nat (kl e)) pad (ov e) (std_perms (u32 (pv e))) (did e) (meta e).
  Lemma encryption_key_ok e pad : ekl e = 8 * kl e -> 1 <= kl e <= 16 -> rv e = 2 \/ rv e = 3 \/ rv e = 4 ->
    encryption_key md5 e pad = Ok (mk_enc (alg e) (ekl e) (kl e) (rv e) (pv e) (ov e) (uv e) (keyed e pad ++ skipn (Z.to_nat (kl e)) (ekey e)) (meta e) (upw e) (opw e) (did e), std_user md5 (rv e) (keyed e pad) (did e)).
  Proof.
    intros E N R. unfold encryption_key. rewrite E. assert (Q : u32 (Z.quot (8 * kl e) 8) = kl e). { rewrite Z.mul_comm, Z.quot_mul by lia. unfold u32. apply Z.mod_small. lia. } rewrite Q.
    assert (KN : forall x : list Z, length x = 16%nat -> firstn (Z.to_nat (kl e)) x <> []) by (intros x L; apply (not_nil _ (Z.to_nat (kl e))); [rewrite firstn_length; lia|lia]).
    unfold keyed, std_key, std_user. cbv zeta. rewrite perms_std. change (repeat 255 4) with [255; 255; 255; 255].
    change padding with (std_pad []).
    destruct R as [R|R].
    - rewrite R. cbn [Z.eqb orb Pos.eqb bind]. rewrite part_ok by lia. cbn [bind]. rewrite rc4_string_ok by (apply KN, md5_16). cbn [bind]. reflexivity.
    - assert (E2 : (rv e =? 3) || (rv e =? 4) = true /\ (rv e =? 2) = false) by (destruct R as [->| ->]; split; reflexivity). destruct E2 as [-> ->]. rewrite rehash_ok by lia. cbn [bind]. rewrite part_ok by lia. cbn [bind]. rewrite rounds_ok by (apply KN, iter_length, md5_16). cbn [bind]. reflexivity.
  Qed.
End Hash.
