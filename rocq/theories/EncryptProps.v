(** Theorems on passwords, keys and encryption dictionaries. The hash is any function to 16 bytes; the witnesses use MD5. *)
From Coq Require Import String.
From Verif Require Import Base TokModel OwnModel Rc4Model Rc4Spec EncryptModel EncryptSpec EncryptProofs EncryptPropLemmas Md5.
Local Open Scope Z_scope.

(** ** C51 *)
(** Saving writes the O and U entries of the standard and uses its key *)
Theorem C51_conform md5 e id : (forall l, length (md5 l) = 16%nat) -> ready e -> exists d s, save_document md5 e id = Ok (d, s) /\
  let n := Z.to_nat (kl e) in let o := std_owner md5 (rv e) n (upw e) (opw e) in let k := std_key md5 (rv e) n (std_pad (upw e)) o (std_perms (u32 (pv e))) id (meta e) in
  file_key s = k /\ get_key (bs "O") d = Some (OStr true o) /\ get_key (bs "U") d = Some (OStr true (std_user md5 (rv e) k id)) /\
  get_key (bs "P") d = Some (ONum (pv e)) /\ get_key (bs "R") d = Some (ONum (rv e)) /\ get_key (bs "Filter") d = Some (OName (bs "Standard")) /\
  get_key (bs "V") d = Some (ONum (match alg e with RC4V1 => 1 | RC4V2 => 2 | AESV2 => 4 end)) /\
  get_key (bs "Length") d = match alg e with RC4V1 => None | _ => Some (ONum (8 * kl e)) end /\
  get_key (bs "EncryptMetadata") d = if meta e then None else Some (OBool false).
Proof. intros M. exact (save_conforms md5 M e id). Qed.
Print Assumptions C51_conform.
(** The user password opens the document with the key it was saved with, and so with the key of each object *)
Theorem C51_user md5 e id : (forall l, length (md5 l) = 16%nat) -> ready e -> exists d s e', save_document md5 e id = Ok (d, s) /\ open_document md5 d (upw e) id = Ok (Some e') /\
  file_key e' = file_key s /\ (forall n g, object_key md5 e' n g = object_key md5 s n g) /\ upw e' = upw e /\ opw e' = [].
Proof. intros M. exact (user_opens md5 M e id). Qed.
Print Assumptions C51_user.
(** So does the owner password, unless it passes the test for user passwords *)
Theorem C51_owner md5 e id : (forall l, length (md5 l) = 16%nat) -> ready e -> exists d s e', save_document md5 e id = Ok (d, s) /\ open_document md5 d (opw e) id = Ok (Some e') /\
  ((file_key e' = file_key s /\ (forall n g, object_key md5 e' n g = object_key md5 s n g) /\ upw e' = [] /\ opw e' = opw e) \/ passes md5 s (ov s) (uv s) id (std_pad (opw e))).
Proof. intros M. exact (owner_opens md5 M e id). Qed.
Print Assumptions C51_owner.
(** Any other password opens it exactly when the test on the hashes is passed; opening never fails in another way *)
Theorem C51_other md5 e id pw : (forall l, length (md5 l) = 16%nat) -> ready e -> forall d s, save_document md5 e id = Ok (d, s) ->
  ((exists e', open_document md5 d pw id = Ok (Some e')) <-> passes md5 s (ov s) (uv s) id (std_pad pw) \/ passes md5 s (ov s) (uv s) id (std_unlock md5 (rv s) (Z.to_nat (kl s)) (ov s) pw)) /\
  (open_document md5 d pw id = Ok None \/ exists e', open_document md5 d pw id = Ok (Some e')).
Proof. intros M. exact (opens_iff md5 M e id pw). Qed.
Print Assumptions C51_other.

Definition id1 : list Z := md5 (bs "one").
Definition id2 : list Z := md5 (bs "two").
Definition opens_with (e : enc) (pw : list Z) : res (option (list Z)) :=
  do p <- save_document md5 e id1; do r <- open_document md5 (fst p) pw id1; Ok (option_map file_key r).
Definition keys_of (e : enc) (tries : list (list Z)) : list (option (list Z)) := map (fun pw => match opens_with e pw with Ok r => r | _ => Some [] end) tries.
Definition all_same (l : list (option (list Z))) (n : nat) : bool :=
  match l with Some k :: _ => Nat.eqb (length k) n && forallb (fun x => match x with Some k' => beq k k' | None => false end) l | _ => false end.
(** With MD5: the user and the owner password open, giving the same key; others do not *)
Example C51_ready_case : ready (create (bs "user") (bs "owner") 4 RC4V1 40) /\ ready (create (bs "user") (bs "owner") 4 RC4V2 128).
Proof. split; apply create_ready; [left; reflexivity|reflexivity|do 4 right; left; reflexivity|discriminate]. Qed.
Example C51_case : all_same (keys_of (create (bs "user") (bs "owner") 4 RC4V1 40) [bs "user"; bs "owner"]) 5 = true /\ keys_of (create (bs "user") (bs "owner") 4 RC4V1 40) [bs "other"; []] = [None; None].
Proof. split; vm_compute; reflexivity. Qed.
Example C51_128_case : all_same (keys_of (create (bs "user") (bs "owner") 4 RC4V2 128) [bs "user"; bs "owner"]) 16 = true.
Proof. vm_compute. reflexivity. Qed.

(** ** C52 *)
(** The settings read from the dictionary are those the document was saved with *)
Theorem C52_settings_partial md5 e id : (forall l, length (md5 l) = 16%nat) -> ready e -> exists d s e0, save_document md5 e id = Ok (d, s) /\ from_dictionary d = Ok e0 /\
  alg e0 = alg e /\ kl e0 = kl e /\ ekl e0 = ekl e /\ rv e0 = rv e /\ pv e0 = pv e /\ meta e0 = meta e /\ ov e0 = ov s /\ uv e0 = uv s.
Proof. intros M. exact (save_settings md5 M e id). Qed.
Print Assumptions C52_settings_partial.
(** New settings are consistent, and stay so when a document is saved or opened *)
Theorem C52_new_ready u o p a len : In len [40; 56; 80; 96; 128] -> (a = RC4V1 -> len = 40) -> ready (create u o p a len).
Proof. exact (create_ready u o p a len). Qed.
Print Assumptions C52_new_ready.
Theorem C52_reopened_ready md5 e id pw : (forall l, length (md5 l) = 16%nat) -> ready e -> forall d s e', save_document md5 e id = Ok (d, s) -> open_document md5 d pw id = Ok (Some e') -> ready s /\ ready e'.
Proof. intros M. exact (reopened_ready md5 M e id pw). Qed.
Print Assumptions C52_reopened_ready.
(** RC4V1 with a longer key: the key is made with that length, but five bytes are used when the file is read; the user password
    does not open it *)
Theorem C52_rc4v1_refuted :
  (do p <- save_document md5 (create (bs "user") (bs "owner") 4 RC4V1 128) id1; do e0 <- from_dictionary (fst p);
   do a <- open_document md5 (fst p) (bs "user") id1; do b <- open_document md5 (fst p) (bs "owner") id1; Ok (kl (snd p), kl e0, a, b)) = Ok (16, 5, None, None).
Proof. vm_compute. reflexivity. Qed.
Print Assumptions C52_rc4v1_refuted.
(** A document with RC4 whose metadata is not encrypted: when saved again the dictionary has another key length or algorithm,
    and the password does not open it any more *)
Definition old (v r len : Z) (o u : list Z) : list (list Z * obj) :=
  fold_left (fun d kv => add_key (fst kv) (snd kv) d)
    [(bs "Filter", OName (bs "Standard")); (bs "V", ONum v); (bs "R", ONum r); (bs "Length", ONum len); (bs "P", ONum (-4)); (bs "O", OStr true o); (bs "U", OStr true u); (bs "EncryptMetadata", OBool false)] [].
Definition old_document (a : algo) (v r : Z) : res (list (list Z * obj)) :=
  do e <- generate md5 (mk_enc a 40 5 r (-4) [] [] [] false (bs "user") (bs "owner") []) id1; Ok (old v r 40 (ov e) (uv e)).
Definition reopen (d : list (list Z * obj)) : res (algo * Z * (algo * Z) * option enc) :=
  do r <- open_document md5 d (bs "user") id1;
  match r with
  | None => Err EInvalidPassword
  | Some e => do p <- save_document md5 e id2; do e0 <- from_dictionary (fst p); do r <- open_document md5 (fst p) (bs "user") id2; Ok (alg (snd p), kl (snd p), (alg e0, kl e0), r)
  end.
Theorem C52_metadata_refuted : (do d <- old_document RC4V2 2 3; reopen d) = Ok (RC4V2, 5, (RC4V2, 16), None).
Proof. vm_compute. reflexivity. Qed.
Print Assumptions C52_metadata_refuted.
Theorem C52_metadata_v1_refuted : (do d <- old_document RC4V1 1 2; reopen d) = Ok (RC4V1, 5, (AESV2, 16), None).
Proof. vm_compute. reflexivity. Qed.
Print Assumptions C52_metadata_v1_refuted.
Example C52_case : map (fun a => do p <- save_document md5 (create (bs "user") [] 4 a 40) id1; do e <- from_dictionary (fst p); Ok (alg e, kl e, pv e)) [RC4V1; RC4V2; AESV2] =
  [Ok (RC4V1, 5, -3900); Ok (RC4V2, 5, -3900); Ok (AESV2, 16, -3900)].
Proof. vm_compute. reflexivity. Qed.

(** ** C87 *)
(** The library keeps only the password a document was opened with, and makes both entries anew when saving: the other password
    becomes empty. So after opening with the user or the owner password and saving, no password is needed. *)
Theorem C87_resave_refuted md5 e id pw id2 : (forall l, length (md5 l) = 16%nat) -> ready e -> forall d s e', save_document md5 e id = Ok (d, s) -> open_document md5 d pw id = Ok (Some e') ->
  exists d2 s2 e2, save_document md5 e' id2 = Ok (d2, s2) /\ open_document md5 d2 [] id2 = Ok (Some e2).
Proof. intros M. exact (resave md5 M e id pw id2). Qed.
Print Assumptions C87_resave_refuted.
Definition resaved (pw try : list Z) : res (bool * bool) :=
  do p <- save_document md5 (create (bs "user") (bs "owner") 4 RC4V1 40) id1;
  do a <- open_document md5 (fst p) try id1;
  do r <- open_document md5 (fst p) pw id1;
  match r with
  | None => Err EInvalidPassword
  | Some e => do p <- save_document md5 e id2; do b <- open_document md5 (fst p) try id2;
              Ok (match a with None => false | _ => true end, match b with None => false | _ => true end)
  end.
Theorem C87_lost_refuted : resaved (bs "user") [] = Ok (false, true) /\ resaved (bs "owner") [] = Ok (false, true) /\
  resaved (bs "user") (bs "owner") = Ok (true, false) /\ resaved (bs "owner") (bs "user") = Ok (true, false).
Proof. vm_compute. repeat split. Qed.
Print Assumptions C87_lost_refuted.
(** The password that was used goes on opening the document *)
Theorem C87_resave_partial md5 e id pw id2 : (forall l, length (md5 l) = 16%nat) -> ready e -> forall d s e', save_document md5 e id = Ok (d, s) -> open_document md5 d pw id = Ok (Some e') ->
  exists d2 s2 e2, save_document md5 e' id2 = Ok (d2, s2) /\ open_document md5 d2 pw id2 = Ok (Some e2) /\ alg e2 = alg e /\ kl e2 = kl e /\ pv e2 = pv e /\ meta e2 = meta e.
Proof. intros M. exact (resave_same md5 M e id pw id2). Qed.
Print Assumptions C87_resave_partial.
(** An update makes the keys from the new identifier, but the first identifier of the file stays the old one, which readers use:
    the password does not open the document *)
Theorem C87_update_refuted :
  (do p <- save_document md5 (create (bs "user") (bs "owner") 4 RC4V1 40) id1; do r <- open_document md5 (fst p) (bs "user") id1;
   match r with None => Err EInvalidPassword | Some e => do p <- save_document md5 e id2; open_document md5 (fst p) (bs "user") (file_id true id1 id2) end) = Ok None.
Proof. vm_compute. reflexivity. Qed.
Print Assumptions C87_update_refuted.
