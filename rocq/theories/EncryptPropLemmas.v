(** Passwords: saving and opening documents *)
From Coq Require Import String.
From Verif Require Import Base ChainProofs TokModel OwnModel Rc4Model Rc4Spec Rc4Proofs EncryptModel EncryptSpec EncryptProofs.
Local Open Scope Z_scope.

Lemma s32_id z : - 2 ^ 31 <= z < 2 ^ 31 -> s32 z = z.
Proof.
  intros B. unfold s32, u32. destruct (Z.lt_ge_cases z 0) as [H|H].
  - replace (z mod 2 ^ 32) with (z + 2 ^ 32); [destruct (Z.ltb_spec (z + 2 ^ 32) (2 ^ 31)); lia|]. apply (Z.mod_unique_pos z (2 ^ 32) (-1)); lia.
  - rewrite Z.mod_small by lia. destruct (Z.ltb_spec z (2 ^ 31)); lia.
Qed.
Lemma s32_range z : - 2 ^ 31 <= s32 z < 2 ^ 31.
Proof. unfold s32. assert (B := Z.mod_pos_bound z (2 ^ 32) eq_refl). fold (u32 z) in B. destruct (Z.ltb_spec (u32 z) (2 ^ 31)); lia. Qed.
Lemma firstn32 s : length s = 32%nat -> first32 s = Ok s.
Proof. intros L. unfold first32. rewrite L. cbn [Nat.ltb Nat.leb]. rewrite firstn_all2 by lia. reflexivity. Qed.
Lemma ready_rv e : ready e -> rv e = 2 \/ rv e = 3 \/ rv e = 4.
Proof. intros (_ & _ & _ & A). destruct (alg e); intuition. Qed.
(** What is read back *)
Definition reread (e : enc) : enc := mk_enc (alg e) (ekl e) (kl e) (rv e) (pv e) (ov e) (uv e) (repeat 0 32) (meta e) [] [] [].
Lemma dictionary_reread e : ready e -> length (ov e) = 32%nat -> length (uv e) = 32%nat -> from_dictionary (dictionary e) = Ok (reread e).
Proof.
  destruct e as [a el k r p o u ky m up op di]. unfold ready. cbn [alg ekl kl rv pv ov uv ekey meta upw opw did]. intros (E & B & P & A) LO LU. unfold reread. cbn [alg ekl kl rv pv ov uv ekey meta upw opw did]. apply firstn32 in LO, LU.
  destruct a.
  - destruct A as (-> & -> & ->). subst el. unfold from_dictionary.
    change (get_key (bs "Filter") (dictionary _)) with (Some (OName (bs "Standard"))). cbv iota. rewrite beq_refl. cbn [bind].
    change (get_key (bs "V") (dictionary _)) with (Some (ONum 1)). change (get_key (bs "R") (dictionary _)) with (Some (ONum 2)).
    change (get_key (bs "P") (dictionary _)) with (Some (ONum p)). change (get_key (bs "O") (dictionary _)) with (Some (OStr true o)). change (get_key (bs "U") (dictionary _)) with (Some (OStr true u)).
    change (get_key (bs "Length") (dictionary _)) with (@None obj). change (get_key (bs "EncryptMetadata") (dictionary _)) with (@None obj). change (get_key (bs "StmF") (dictionary _)) with (@None obj).
    cbn [num_of str_of bind]. change (s32 1 =? 1) with true. change (s32 2 =? 2) with true. cbn [orb andb]. rewrite LO, LU. cbn [bind]. rewrite (s32_id p P). reflexivity.
  - destruct A as (-> & ->). unfold from_dictionary.
    change (get_key (bs "Filter") (dictionary _)) with (Some (OName (bs "Standard"))). cbv iota. rewrite beq_refl. cbn [bind].
    change (get_key (bs "V") (dictionary _)) with (Some (ONum 2)). change (get_key (bs "R") (dictionary _)) with (Some (ONum 3)).
    change (get_key (bs "P") (dictionary _)) with (Some (ONum p)). change (get_key (bs "O") (dictionary _)) with (Some (OStr true o)). change (get_key (bs "U") (dictionary _)) with (Some (OStr true u)).
    change (get_key (bs "Length") (dictionary _)) with (Some (ONum el)). change (get_key (bs "EncryptMetadata") (dictionary _)) with (@None obj). change (get_key (bs "StmF") (dictionary _)) with (@None obj).
    cbn [num_of str_of bind]. change (s32 2 =? 1) with false. change (s32 2 =? 2) with true. change (s32 3 =? 3) with true. cbn [orb andb]. destruct (Z.ltb_spec 128 el); [lia|]. rewrite LO, LU. cbn [bind]. rewrite (s32_id p P), (s32_id el) by lia. change (s32 3) with 3.
    rewrite E. rewrite (Z.mul_comm 8 k), Z.quot_mul by lia. unfold u32. rewrite (Z.mod_small k) by lia. reflexivity.
  - destruct A as (-> & ->). subst el. unfold from_dictionary.
    destruct m.
    + change (get_key (bs "Filter") (dictionary _)) with (Some (OName (bs "Standard"))). cbv iota. rewrite beq_refl. cbn [bind].
      change (get_key (bs "V") (dictionary _)) with (Some (ONum 4)). change (get_key (bs "R") (dictionary _)) with (Some (ONum 4)).
      change (get_key (bs "P") (dictionary _)) with (Some (ONum p)). change (get_key (bs "O") (dictionary _)) with (Some (OStr true o)). change (get_key (bs "U") (dictionary _)) with (Some (OStr true u)).
      change (get_key (bs "Length") (dictionary _)) with (Some (ONum 128)). change (get_key (bs "EncryptMetadata") (dictionary _)) with (@None obj). change (get_key (bs "StmF") (dictionary _)) with (Some (OName (bs "StdCF"))).
      match goal with |- context [get_key (bs "CF") ?d] => let v := eval vm_compute in (get_key (bs "CF") d) in change (get_key (bs "CF") d) with v end.
      cbn [num_of str_of bind]. change (s32 4 =? 1) with false. change (s32 4 =? 2) with false. change (s32 4 =? 4) with true. cbn [orb andb]. cbv iota.
      match goal with |- context [beq ?x (bs "V2")] => change (beq x (bs "V2")) with false end. rewrite LO, LU. cbn [bind]. rewrite (s32_id p P). reflexivity.
    + change (get_key (bs "Filter") (dictionary _)) with (Some (OName (bs "Standard"))). cbv iota. rewrite beq_refl. cbn [bind].
      change (get_key (bs "V") (dictionary _)) with (Some (ONum 4)). change (get_key (bs "R") (dictionary _)) with (Some (ONum 4)).
      change (get_key (bs "P") (dictionary _)) with (Some (ONum p)). change (get_key (bs "O") (dictionary _)) with (Some (OStr true o)). change (get_key (bs "U") (dictionary _)) with (Some (OStr true u)).
      change (get_key (bs "Length") (dictionary _)) with (Some (ONum 128)). change (get_key (bs "EncryptMetadata") (dictionary _)) with (Some (OBool false)). change (get_key (bs "StmF") (dictionary _)) with (Some (OName (bs "StdCF"))).
      match goal with |- context [get_key (bs "CF") ?d] => let v := eval vm_compute in (get_key (bs "CF") d) in change (get_key (bs "CF") d) with v end.
      cbn [num_of str_of bind]. change (s32 4 =? 1) with false. change (s32 4 =? 2) with false. change (s32 4 =? 4) with true. cbn [orb andb]. cbv iota.
      match goal with |- context [beq ?x (bs "V2")] => change (beq x (bs "V2")) with false end. rewrite LO, LU. cbn [bind]. rewrite (s32_id p P). reflexivity.
Qed.

Section Hash.
  Context (md5 : list Z -> list Z) (md5_16 : forall l, length (md5 l) = 16%nat).
  Definition key_for (e : enc) (o id pad : list Z) : list Z := std_key md5 (rv e) (Z.to_nat (kl e)) pad o (std_perms (u32 (pv e))) id (meta e).
  Definition saved (e : enc) (id : list Z) : enc :=
    let o := std_owner md5 (rv e) (Z.to_nat (kl e)) (upw e) (opw e) in
    let k := key_for e o id (std_pad (upw e)) in
    mk_enc (alg e) (ekl e) (kl e) (rv e) (pv e) o (std_user md5 (rv e) k id) (k ++ skipn (Z.to_nat (kl e)) (ekey e)) (meta e) (upw e) (opw e) id.
  Lemma generate_ok e id : ready e -> generate md5 e id = Ok (saved e id).
  Proof.
    intros R. pose proof (ready_rv e R) as V. destruct R as (E & B & _). unfold generate. rewrite pad_std, (owner_key_ok md5 md5_16) by assumption. cbn [bind upw]. rewrite pad_std, (encryption_key_ok md5 md5_16) by assumption. reflexivity.
  Qed.
  Lemma save_ok e id : ready e -> save_document md5 e id = Ok (dictionary (saved (copy e) id), saved (copy e) id).
  Proof. intros R. unfold save_document. rewrite generate_ok by exact R. reflexivity. Qed.
  Lemma saved_ready e id : ready e -> ready (saved e id).
  Proof. intros R. exact R. Qed.
  Lemma saved_dictionary e id : ready e -> from_dictionary (dictionary (saved e id)) = Ok (reread (saved e id)).
  Proof. intros R. apply dictionary_reread; [exact R|apply owner_length|apply (user_length md5 md5_16)]. Qed.
  Lemma key_for_length e o id pad : 1 <= kl e <= 16 -> length (key_for e o id pad) = Z.to_nat (kl e).
  Proof. intros B. apply (key_length md5 md5_16). lia. Qed.
  Lemma file_key_app e k r : length k = Z.to_nat (kl e) -> ekey e = k ++ r -> file_key e = k.
  Proof. intros L E. unfold file_key. rewrite E, firstn_app, L, Nat.sub_diag, firstn_O, app_nil_r. apply firstn_all2. lia. Qed.
  (** The result of opening *)
  Definition test (e : enc) (id pad : list Z) : bool :=
    beq (firstn (Z.to_nat (kl e)) (std_user md5 (rv e) (key_for e (ov e) id pad) id)) (firstn (Z.to_nat (kl e)) (uv e)).
  Definition opened_with (e : enc) (id pad u o : list Z) : enc :=
    mk_enc (alg e) (ekl e) (kl e) (rv e) (pv e) (ov e) (uv e) (key_for e (ov e) id pad ++ skipn (Z.to_nat (kl e)) (repeat 0 32)) (meta e) u o id.
  Lemma authenticate_ok e pw id : ready e ->
    authenticate md5 (reread e) pw id =
    Ok (if test e id (std_pad pw) then (true, opened_with e id (std_pad pw) pw [])
        else let p := std_unlock md5 (rv e) (Z.to_nat (kl e)) (ov e) pw in
             if test e id p then (true, opened_with e id p [] pw) else (false, opened_with e id p [] [])).
  Proof.
    intros R. pose proof (ready_rv e R) as V. pose proof R as (E & B & _). unfold authenticate, reread. cbn [alg ekl kl rv pv ov uv ekey meta upw opw did]. rewrite pad_std, (encryption_key_ok md5 md5_16) by assumption.
    cbn [bind alg ekl kl rv pv ov uv ekey meta upw opw did]. unfold check_key, keyed. cbn [alg ekl kl rv pv ov uv ekey meta upw opw did]. fold (key_for e (ov e) id (std_pad pw)). fold (test e id (std_pad pw)).
    destruct (test e id (std_pad pw)); [reflexivity|]. rewrite <- pad_std, (owner_unlock_ok md5 md5_16) by assumption. cbn [bind]. rewrite (encryption_key_ok md5 md5_16) by assumption. cbn [bind alg ekl kl rv pv ov uv ekey meta upw opw did]. unfold keyed. cbn [alg ekl kl rv pv ov uv ekey meta upw opw did]. cbv zeta.
    set (p := std_unlock md5 (rv e) (Z.to_nat (kl e)) (ov e) pw). fold (key_for e (ov e) id p). fold (test e id p).
    assert (SK : forall a b : list Z, length a = Z.to_nat (kl e) -> skipn (Z.to_nat (kl e)) (a ++ b) = b). { intros a b L. rewrite skipn_app, L, Nat.sub_diag, skipn_all2 by lia. reflexivity. }
    rewrite SK by (apply key_for_length, B). unfold opened_with, with_passwords. cbn [alg ekl kl rv pv ov uv ekey meta upw opw did]. destruct (test e id p); reflexivity.
  Qed.
  Lemma open_ok e pw id : ready e -> length (ov e) = 32%nat -> length (uv e) = 32%nat -> open_document md5 (dictionary e) pw id =
    Ok (if test e id (std_pad pw) then Some (opened_with e id (std_pad pw) pw [])
        else let p := std_unlock md5 (rv e) (Z.to_nat (kl e)) (ov e) pw in if test e id p then Some (opened_with e id p [] pw) else None).
  Proof.
    intros R LO LU. unfold open_document. rewrite dictionary_reread by assumption. cbn [bind]. rewrite authenticate_ok by exact R. cbn [bind]. destruct (test e id (std_pad pw)); [reflexivity|]. cbv zeta. destruct (test e id _); reflexivity.
  Qed.
  Lemma test_user e id : test (saved e id) id (std_pad (upw e)) = true.
  Proof. apply beq_refl. Qed.
  Lemma unlock_saved e id : std_unlock md5 (rv (saved e id)) (Z.to_nat (kl (saved e id))) (ov (saved e id)) (opw e) = std_pad (upw e).
  Proof. apply unlock_owner. Qed.
  Lemma opened_key e id pad u o : 1 <= kl e <= 16 -> file_key (opened_with e id pad u o) = key_for e (ov e) id pad.
  Proof. intros B. apply (file_key_app _ _ (skipn (Z.to_nat (kl e)) (repeat 0 32))); [exact (key_for_length e _ id pad B)|reflexivity]. Qed.
  Lemma saved_key e id : 1 <= kl e <= 16 -> file_key (saved e id) = key_for e (ov (saved e id)) id (std_pad (upw e)).
  Proof. intros B. apply (file_key_app _ _ (skipn (Z.to_nat (kl e)) (ekey e))); [exact (key_for_length e _ id _ B)|reflexivity]. Qed.
  Lemma object_keys a b : alg a = alg b -> kl a = kl b -> file_key a = file_key b -> forall n g, object_key md5 a n g = object_key md5 b n g.
  Proof. intros A K F n g. unfold object_key. unfold file_key in F. rewrite F, A, K. reflexivity. Qed.
  Lemma saved_lengths e id : length (ov (saved e id)) = 32%nat /\ length (uv (saved e id)) = 32%nat.
  Proof. split; [apply owner_length|apply (user_length md5 md5_16)]. Qed.

  (** ** Opening what was saved *)
  Lemma user_opens e id : ready e -> exists d s e', save_document md5 e id = Ok (d, s) /\ open_document md5 d (upw e) id = Ok (Some e') /\
    file_key e' = file_key s /\ (forall n g, object_key md5 e' n g = object_key md5 s n g) /\ upw e' = upw e /\ opw e' = [].
  Proof.
    intros R. destruct (saved_lengths (copy e) id) as [LO LU]. set (s := saved (copy e) id) in *. assert (RS : ready s) by exact R. exists (dictionary s), s, (opened_with s id (std_pad (upw e)) (upw e) []). split; [apply save_ok, R|].
    pose proof (test_user (copy e) id) as T. change (upw (copy e)) with (upw e) in T. fold s in T. split; [rewrite open_ok by assumption; rewrite T; reflexivity|]. assert (F : file_key (opened_with s id (std_pad (upw e)) (upw e) []) = file_key s). { rewrite opened_key by apply R. unfold s. rewrite saved_key by apply R. reflexivity. }
    split; [exact F|]. split; [apply object_keys; [reflexivity|reflexivity|exact F]|]. split; reflexivity.
  Qed.
  Lemma owner_opens e id : ready e -> exists d s e', save_document md5 e id = Ok (d, s) /\ open_document md5 d (opw e) id = Ok (Some e') /\
    ((file_key e' = file_key s /\ (forall n g, object_key md5 e' n g = object_key md5 s n g) /\ upw e' = [] /\ opw e' = opw e) \/ passes md5 s (ov s) (uv s) id (std_pad (opw e))).
  Proof.
    intros R. destruct (saved_lengths (copy e) id) as [LO LU]. set (s := saved (copy e) id) in *. assert (RS : ready s) by exact R.
    destruct (test s id (std_pad (opw e))) eqn:T.
    - exists (dictionary s), s, (opened_with s id (std_pad (opw e)) (opw e) []). split; [apply save_ok, R|]. split; [rewrite open_ok by assumption; rewrite T; reflexivity|]. right. apply beq_eq in T. exact T.
    - exists (dictionary s), s, (opened_with s id (std_pad (upw e)) [] (opw e)). split; [apply save_ok, R|]. pose proof (unlock_saved (copy e) id) as U. fold s in U. change (opw (copy e)) with (opw e) in U. change (upw (copy e)) with (upw e) in U.
      pose proof (test_user (copy e) id) as T2. change (upw (copy e)) with (upw e) in T2. fold s in T2. split; [rewrite open_ok by assumption; rewrite T; cbv zeta; rewrite U, T2; reflexivity|]. left. assert (F : file_key (opened_with s id (std_pad (upw e)) [] (opw e)) = file_key s). { rewrite opened_key by apply R. unfold s. rewrite saved_key by apply R. reflexivity. }
      split; [exact F|]. split; [apply object_keys; [reflexivity|reflexivity|exact F]|]. split; reflexivity.
  Qed.
  Lemma opens_iff e id pw : ready e -> forall d s, save_document md5 e id = Ok (d, s) ->
    ((exists e', open_document md5 d pw id = Ok (Some e')) <-> passes md5 s (ov s) (uv s) id (std_pad pw) \/ passes md5 s (ov s) (uv s) id (std_unlock md5 (rv s) (Z.to_nat (kl s)) (ov s) pw)) /\
    (open_document md5 d pw id = Ok None \/ exists e', open_document md5 d pw id = Ok (Some e')).
  Proof.
    intros R d s H. rewrite save_ok in H by exact R. apply ok_inj in H. injection H as <- <-. destruct (saved_lengths (copy e) id) as [LO LU]. set (s := saved (copy e) id) in *. assert (RS : ready s) by exact R. rewrite open_ok by assumption. cbv zeta.
    assert (TP : forall pad, test s id pad = true <-> passes md5 s (ov s) (uv s) id pad) by (intros pad; apply beq_eq). pose proof (TP (std_pad pw)) as T1. pose proof (TP (std_unlock md5 (rv s) (Z.to_nat (kl s)) (ov s) pw)) as T2.
    destruct (test s id (std_pad pw)); [split; [split; [intros _; left; apply T1; reflexivity|eauto]|eauto]|].
    destruct (test s id (std_unlock md5 (rv s) (Z.to_nat (kl s)) (ov s) pw)); [split; [split; [intros _; right; apply T2; reflexivity|eauto]|eauto]|].
    split; [|left; reflexivity]. split; [intros (e' & E); discriminate|]. intros [X|X]; [apply T1 in X|apply T2 in X]; discriminate.
  Qed.
  (** ** Saving again *)
  Lemma opened_ready e id pad u o : ready e -> ready (opened_with e id pad u o).
  Proof. intros R. exact R. Qed.
  Lemma resave e id pw id2 : ready e -> forall d s e', save_document md5 e id = Ok (d, s) -> open_document md5 d pw id = Ok (Some e') ->
    exists d2 s2 e2, save_document md5 e' id2 = Ok (d2, s2) /\ open_document md5 d2 [] id2 = Ok (Some e2).
  Proof.
    intros R d s e' H O. rewrite save_ok in H by exact R. apply ok_inj in H. injection H as <- <-. destruct (saved_lengths (copy e) id) as [LO LU]. set (s := saved (copy e) id) in *. assert (RS : ready s) by exact R. rewrite open_ok in O by assumption. cbv zeta in O.
    destruct (test s id (std_pad pw)).
    - apply ok_inj in O. injection O as <-. destruct (owner_opens (opened_with s id (std_pad pw) pw []) id2 RS) as (d2 & s2 & e2 & A & B & _). exists d2, s2, e2. split; [exact A|exact B].
    - destruct (test s id _); [|discriminate]. apply ok_inj in O. injection O as <-. match goal with |- context [save_document md5 ?x id2] => destruct (user_opens x id2 RS) as (d2 & s2 & e2 & A & B & _) end. exists d2, s2, e2. split; [exact A|exact B].
  Qed.
  Lemma reopened_ready e id pw : ready e -> forall d s e', save_document md5 e id = Ok (d, s) -> open_document md5 d pw id = Ok (Some e') -> ready s /\ ready e'.
  Proof.
    intros R d s e' H O. rewrite save_ok in H by exact R. apply ok_inj in H. injection H as <- <-. destruct (saved_lengths (copy e) id) as [LO LU]. set (s := saved (copy e) id) in *. assert (RS : ready s) by exact R. rewrite open_ok in O by assumption. cbv zeta in O. split; [exact RS|].
    destruct (test s id (std_pad pw)); [apply ok_inj in O; injection O as <-; exact R|]. destruct (test s id _); [|discriminate]. apply ok_inj in O. injection O as <-. exact R.
  Qed.
  Lemma resave_same e id pw id2 : ready e -> forall d s e', save_document md5 e id = Ok (d, s) -> open_document md5 d pw id = Ok (Some e') ->
    exists d2 s2 e2, save_document md5 e' id2 = Ok (d2, s2) /\ open_document md5 d2 pw id2 = Ok (Some e2) /\ alg e2 = alg e /\ kl e2 = kl e /\ pv e2 = pv e /\ meta e2 = meta e.
  Proof.
    intros R d s e' H O. rewrite save_ok in H by exact R. apply ok_inj in H. injection H as <- <-. destruct (saved_lengths (copy e) id) as [LO LU]. set (s := saved (copy e) id) in *. assert (RS : ready s) by exact R. rewrite open_ok in O by assumption. cbv zeta in O.
    assert (X : e' = opened_with s id (std_pad pw) pw [] \/ e' = opened_with s id (std_unlock md5 (rv s) (Z.to_nat (kl s)) (ov s) pw) [] pw).
    { destruct (test s id (std_pad pw)); [apply ok_inj in O; injection O as <-; left; reflexivity|]. destruct (test s id _); [|discriminate]. apply ok_inj in O. injection O as <-. right; reflexivity. }
    assert (RE : ready e') by (destruct X as [-> | ->]; exact R). assert (SE : alg e' = alg e /\ kl e' = kl e /\ pv e' = pv e /\ meta e' = meta e) by (destruct X as [-> | ->]; repeat split). clear O.
    destruct (saved_lengths (copy e') id2) as [LO2 LU2]. exists (dictionary (saved (copy e') id2)), (saved (copy e') id2).
    assert (OP : exists e2, open_document md5 (dictionary (saved (copy e') id2)) pw id2 = Ok (Some e2)).
    { destruct X as [-> | ->].
      - destruct (user_opens _ id2 RE) as (d2 & s2 & e2 & A & B & _). rewrite save_ok in A by exact RE. apply ok_inj in A. injection A as <- _. eauto.
      - destruct (owner_opens _ id2 RE) as (d2 & s2 & e2 & A & B & _). rewrite save_ok in A by exact RE. apply ok_inj in A. injection A as <- _. eauto. }
    destruct OP as (e2 & OP). exists e2. split; [apply save_ok, RE|]. split; [exact OP|]. rewrite open_ok in OP by (assumption || exact RE). cbv zeta in OP. destruct SE as (<- & <- & <- & <-).
    destruct (test _ id2 (std_pad pw)); [apply ok_inj in OP; injection OP as <-; repeat split|]. destruct (test _ id2 _); [|discriminate]. apply ok_inj in OP. injection OP as <-. repeat split.
  Qed.
  (** ** New documents *)
  Lemma create_ready u o p a len : In len [40; 56; 80; 96; 128] -> (a = RC4V1 -> len = 40) -> ready (create u o p a len).
  Proof.
    intros I V. unfold ready. destruct a; cbn [create alg ekl kl rv pv meta].
    - rewrite V by reflexivity. pose proof (s32_range (Z.lor 4294963392 p)). repeat split; lia.
    - pose proof (s32_range (Z.lor 4294963392 p)) as B. generalize dependent (s32 (Z.lor 4294963392 p)). intros q B.
      assert (N : exists k, len = 8 * k /\ 5 <= k <= 16) by (exists (len / 8); cbn [In] in I; repeat (destruct I as [<-|I]; [split; [reflexivity|split; intros X; discriminate X]|]); contradiction).
      destruct N as (k & -> & K). assert (Z0 : Z.rem (8 * k) 8 = 0) by (rewrite Z.mul_comm; apply Z.rem_mul; lia). rewrite Z0, Z.sub_0_r. destruct (Z.leb_spec 40 (8 * k)); [|lia]. destruct (Z.leb_spec (8 * k) 128); [|lia]. rewrite Z.mul_comm, Z.div_mul by lia. repeat split; lia.
    - pose proof (s32_range (Z.lor 4294963392 p)). repeat split; lia.
  Qed.
End Hash.
Section Strings.
  Context (md5 : list Z -> list Z) (md5_16 : forall l, length (md5 l) = 16%nat).
  Lemma object_key_ok e n g : 1 <= kl e <= 16 -> exists k, object_key md5 e n g = Ok k /\ (6 <= length k <= 16)%nat.
  Proof.
    intros B. unfold object_key. destruct (Z.ltb_spec 16 (kl e)); [lia|]. eexists. split; [reflexivity|]. rewrite firstn_length, md5_16. destruct (Z.leb_spec (kl e) 11); lia.
  Qed.
  Lemma string_twice e n g data : 1 <= kl e <= 16 ->
    exists k c, object_key md5 e n g = Ok k /\ crypt_string md5 e n g data = Ok c /\ c = rc4_from k 0 data /\ length c = length data /\ crypt_string md5 e n g c = Ok data.
  Proof.
    intros B. destruct (object_key_ok e n g B) as (k & K & L). exists k, (rc4_from k 0 data). split; [exact K|]. unfold crypt_string. rewrite K. cbn [bind]. rewrite !rc4_string_ok by (destruct k; [cbn in L; lia|discriminate]). rewrite rc4_twice, rc4_from_length. repeat split.
  Qed.
End Strings.
Section Conform.
  Context (md5 : list Z -> list Z) (md5_16 : forall l, length (md5 l) = 16%nat).
  Lemma save_conforms e id : ready e -> exists d s, save_document md5 e id = Ok (d, s) /\
    let n := Z.to_nat (kl e) in let o := std_owner md5 (rv e) n (upw e) (opw e) in let k := std_key md5 (rv e) n (std_pad (upw e)) o (std_perms (u32 (pv e))) id (meta e) in
    file_key s = k /\ get_key (bs "O") d = Some (OStr true o) /\ get_key (bs "U") d = Some (OStr true (std_user md5 (rv e) k id)) /\
    get_key (bs "P") d = Some (ONum (pv e)) /\ get_key (bs "R") d = Some (ONum (rv e)) /\ get_key (bs "Filter") d = Some (OName (bs "Standard")) /\
    get_key (bs "V") d = Some (ONum (match alg e with RC4V1 => 1 | RC4V2 => 2 | AESV2 => 4 end)) /\
    get_key (bs "Length") d = match alg e with RC4V1 => None | _ => Some (ONum (8 * kl e)) end /\
    get_key (bs "EncryptMetadata") d = if meta e then None else Some (OBool false).
  Proof.
    intros R. exists (dictionary (saved md5 (copy e) id)), (saved md5 (copy e) id). split; [apply (save_ok md5 md5_16), R|]. cbv zeta. split; [rewrite (saved_key md5 md5_16) by apply R; reflexivity|].
    pose proof R as (E & B & _ & A). unfold dictionary. cbn [saved copy alg ekl kl rv pv ov uv meta upw opw]. unfold key_for. cbn [copy alg ekl kl rv pv ov uv meta upw opw].
    destruct (alg e).
    - destruct A as (K & V & M). rewrite K, V, M. repeat split.
    - destruct A as (V & M). rewrite V, M, E. repeat split.
    - destruct A as (K & V). rewrite K, V. destruct (meta e); repeat split.
  Qed.
  Lemma save_settings e id : ready e -> exists d s e0, save_document md5 e id = Ok (d, s) /\ from_dictionary d = Ok e0 /\
    alg e0 = alg e /\ kl e0 = kl e /\ ekl e0 = ekl e /\ rv e0 = rv e /\ pv e0 = pv e /\ meta e0 = meta e /\ ov e0 = ov s /\ uv e0 = uv s.
  Proof.
    intros R. exists (dictionary (saved md5 (copy e) id)), (saved md5 (copy e) id), (reread (saved md5 (copy e) id)). split; [apply (save_ok md5 md5_16), R|]. split; [apply (saved_dictionary md5 md5_16), R|]. repeat split.
  Qed.
End Conform.
