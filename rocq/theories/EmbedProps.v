(** Property C167: the files of embedded fonts *)
From Coq Require Import String.
From Verif Require Import Base TokModel OwnModel EmbedModel EmbedSpec.
Local Open Scope Z_scope.

Lemma starts_spec p : forall d, starts p d = true <-> exists b, d = p ++ b.
Proof.
  induction p as [|x p IH]; intros d; [split; [intros _; exists d; reflexivity|reflexivity]|]. destruct d as [|y d]; cbn [starts].
  - split; [discriminate|intros [b E]; discriminate E].
  - rewrite andb_true_iff, Z.eqb_eq, IH. split.
    + intros [-> [b ->]]. exists b. reflexivity.
    + intros [b E]. injection E as -> ->. split; [reflexivity|exists b; reflexivity].
Qed.
Lemma find_first_none p : p <> [] -> forall d, find_first p d = None <-> forall a b, d <> a ++ p ++ b.
Proof.
  intros NP. induction d as [|y d IH]; cbn [find_first].
  - destruct (starts p []) eqn:S.
    + apply starts_spec in S as [b E]. destruct p; [destruct (NP eq_refl)|discriminate E].
    + split; [|reflexivity]. intros _ a b E. symmetry in E. apply app_eq_nil in E as [_ E]. apply app_eq_nil in E as [E _]. exact (NP E).
  - destruct (starts p (y :: d)) eqn:S.
    + apply starts_spec in S as [b E]. split; [discriminate|]. intros H. destruct (H [] b E).
    + destruct (find_first p d) as [n|] eqn:F; cbn [option_map].
      * split; [discriminate|]. intros H. assert (X : Some n = None); [|discriminate X]. apply IH. intros a b E. apply (H (y :: a) b). rewrite E. reflexivity.
      * split; [|reflexivity]. intros _ [|x a] b E.
        -- rewrite (proj2 (starts_spec p (y :: d))) in S; [discriminate S|exists b; exact E].
        -- injection E as _ E. exact (proj1 IH eq_refl a b E).
Qed.
Lemma find_first_at p : forall d a b, d = a ++ p ++ b -> (forall a' b', d = a' ++ p ++ b' -> (length a <= length a')%nat) -> find_first p d = Some (length a).
Proof.
  induction d as [|y d IH]; intros a b E M.
  - symmetry in E. apply app_eq_nil in E as [-> E]. apply app_eq_nil in E as [-> ->]. reflexivity.
  - cbn [find_first]. destruct (starts p (y :: d)) eqn:S.
    + apply starts_spec in S as [b' X]. specialize (M [] b' X). destruct a; [reflexivity|cbn in M; lia].
    + destruct a as [|x a]; [rewrite (proj2 (starts_spec p (y :: d))) in S; [discriminate S|exists b; exact E]|]. injection E as -> E.
      rewrite (IH a b E); [reflexivity|]. intros a' b' X. specialize (M (x :: a') b'). cbn [length app] in M. rewrite X in M. specialize (M eq_refl). lia.
Qed.
Lemma is_gap_spec c : is_gap c = true <-> gap c.
Proof. unfold is_gap, gap. rewrite !orb_true_iff, !Z.eqb_eq. cbn [In]. intuition lia. Qed.

(** The loop goes on for ever once there is something that is not a space *)
Lemma skip_stuck fuel : forall d n, (n < length d)%nat -> is_gap (nth n d 0) = false -> skip_gap fuel d n = Fuel.
Proof.
  induction fuel as [|k IH]; intros d n L G; [reflexivity|]. cbn [skip_gap]. rewrite (proj2 (Nat.eqb_neq n (length d))) by lia. rewrite G. exact (IH d n L G).
Qed.
Lemma skip_hangs fuel : forall a b c t, Forall gap b -> ~ gap c -> skip_gap fuel (a ++ b ++ c :: t) (length a) = Fuel.
Proof.
  induction fuel as [|k IH]; intros a b c t F N; [reflexivity|]. destruct b as [|x b].
  - apply skip_stuck; [rewrite app_length; cbn; lia|]. cbn [app]. rewrite app_nth2, Nat.sub_diag by lia. cbn [nth].
    destruct (is_gap c) eqn:G; [apply is_gap_spec in G; destruct (N G)|reflexivity].
  - inversion F as [|? ? X Y]; subst. cbn [skip_gap app]. rewrite (proj2 (Nat.eqb_neq _ _)) by (rewrite app_length; cbn; lia).
    rewrite app_nth2, Nat.sub_diag by lia. cbn [nth]. rewrite (proj2 (is_gap_spec x) X).
    replace (a ++ x :: b ++ c :: t) with ((a ++ [x]) ++ b ++ c :: t) by (rewrite <- app_assoc; reflexivity).
    replace (S (length a)) with (length (a ++ [x])) by (rewrite app_length; cbn; lia). exact (IH (a ++ [x]) b c t Y N).
Qed.
Lemma skip_ends b : forall a fuel, Forall gap b -> (length b < fuel)%nat -> skip_gap fuel (a ++ b) (length a) = Ok (Returned (length (a ++ b))).
Proof.
  induction b as [|x b IH]; intros a fuel F L; (destruct fuel as [|k]; [cbn in L; lia|]); cbn [skip_gap].
  - rewrite app_nil_r, Nat.eqb_refl. reflexivity.
  - inversion F as [|? ? X Y]; subst. rewrite (proj2 (Nat.eqb_neq _ _)) by (rewrite app_length; cbn; lia).
    rewrite app_nth2, Nat.sub_diag by lia. cbn [nth]. rewrite (proj2 (is_gap_spec x) X).
    replace (a ++ x :: b) with ((a ++ [x]) ++ b) by (rewrite <- app_assoc; reflexivity).
    replace (S (length a)) with (length (a ++ [x])) by (rewrite app_length; cbn; lia). apply IH; [exact Y|cbn in L; lia].
Qed.
Lemma split_gap b : Forall gap b \/ exists u c t, b = u ++ c :: t /\ Forall gap u /\ ~ gap c.
Proof.
  induction b as [|x b IH]; [left; constructor|]. destruct (is_gap x) eqn:G.
  - apply is_gap_spec in G. destruct IH as [F|(u & c & t & -> & F & N)]; [left; constructor; assumption|].
    right. exists (x :: u), c, t. split; [reflexivity|]. split; [constructor; assumption|exact N].
  - right. exists [], x, b. split; [reflexivity|]. split; [constructor|]. intros X. apply is_gap_spec in X. congruence.
Qed.

(** ** Type 1 *)

(** Embedding a font does not end when anything but spaces follows the eexec, as in every font that has glyphs *)
Theorem C167_hangs_refuted cid d a b : clear_text d a b -> Exists (fun c => ~ gap c) b -> forall fuel, embed fuel SFree KType1 cid d = Fuel.
Proof.
  intros [E M] X fuel. unfold embed. destruct d as [|y d]; [symmetry in E; apply app_eq_nil in E as [_ E]; discriminate E|].
  unfold lengths, ready, init_type1. rewrite (find_first_at _ _ a b E M). rewrite E.
  destruct (split_gap b) as [F|(u & c & t & -> & F & N)].
  - apply Exists_exists in X as (c & I & N). rewrite Forall_forall in F. destruct (N (F c I)).
  - replace (length a + 5)%nat with (length (a ++ bs "eexec")) by (rewrite app_length; reflexivity). rewrite (app_assoc a).
    rewrite skip_hangs by assumption. reflexivity.
Qed.
Print Assumptions C167_hangs_refuted.
(** It ends exactly otherwise *)
Theorem C167_ends d : d <> [] -> (exists fuel r, embed fuel SFree KType1 false d = Ok r) <-> (no_eexec d \/ exists a b, clear_text d a b /\ Forall gap b).
Proof.
  intros ND. split.
  - intros (fuel & r & R). destruct (find_first (bs "eexec") d) as [n|] eqn:F.
    + right. assert (X : exists a b, clear_text d a b).
      { clear R ND. revert n F. unfold clear_text. induction d as [|y d IH]; intros n F; cbn [find_first] in F.
        - cbn in F. discriminate F.
        - destruct (starts (bs "eexec") (y :: d)) eqn:S.
          + apply starts_spec in S as [b E]. exists [], b. split; [exact E|]. intros a' b' _. cbn. lia.
          + destruct (find_first (bs "eexec") d) as [m|]; [|discriminate F]. destruct (IH m eq_refl) as (a & b & E & M).
            exists (y :: a), b. split; [rewrite E; reflexivity|]. intros [|x a'] b' Q.
            * rewrite (proj2 (starts_spec _ (y :: d))) in S; [discriminate S|exists b'; exact Q].
            * injection Q as _ Q. specialize (M a' b' Q). cbn [length]. lia. }
      destruct X as (a & b & C). exists a, b. split; [exact C|]. destruct (split_gap b) as [G|(u & c & t & E & G & N)]; [exact G|].
      rewrite (C167_hangs_refuted false d a b C) in R; [discriminate R|]. apply Exists_exists. exists c. split; [rewrite E; apply in_or_app; right; left; reflexivity|exact N].
    + left. intros a b. apply find_first_none; [discriminate|exact F].
  - destruct d as [|y d]; [destruct (ND eq_refl)|]. unfold embed, lengths, ready, init_type1. intros [N|(a & b & [E M] & G)].
    + exists 0%nat. rewrite (proj2 (find_first_none (bs "eexec") ltac:(discriminate) (y :: d)) N). eexists. reflexivity.
    + exists (S (length b)). rewrite (find_first_at _ _ a b E M). rewrite E.
      replace (length a + 5)%nat with (length (a ++ bs "eexec")) by (rewrite app_length; reflexivity). rewrite (app_assoc a).
      rewrite skip_ends by (try assumption; lia). eexists. reflexivity.
Qed.
Print Assumptions C167_ends.
(** The lengths are those of the parts only when the file has no eexec, that is, when it is no Type 1 file *)
Theorem C167_parts_refuted fuel d k file : embed fuel SFree KType1 false d = Ok (k, file) -> (tells_parts file d <-> no_eexec d).
Proof.
  unfold embed. destruct d as [|y d0]; [discriminate|]. set (d := y :: d0). unfold lengths, ready, init_type1. destruct (find_first (bs "eexec") d) as [n|] eqn:F.
  - destruct (skip_gap fuel d (n + 5)) as [r|e| |] eqn:K; try discriminate. cbn [bind].
    assert (R : exists m, r = Returned m /\ m = length d).
    { clear F. revert K. generalize (n + 5)%nat. induction fuel as [|f IH]; intros m K; [discriminate|]. cbn [skip_gap] in K.
      destruct (Nat.eqb m (length d)) eqn:E; [apply Nat.eqb_eq in E; apply ok_inj in K; exists m; split; [symmetry; exact K|exact E]|].
      destruct (is_gap (nth m d 0)); exact (IH _ K). }
    destruct R as (m & -> & ->). cbn [l1 length1]. intros E. apply ok_inj in E. apply pair_equal_spec in E as [<- <-]. split.
    + intros (x & v & w & X & V & W & T). vm_compute in X, V, W. injection X as <-. injection V as <-. injection W as <-.
      change (Z.of_nat (length d) + Z.of_nat (length d) + Z.of_nat (length d) = Z.of_nat (length d)) in T. unfold d in T. cbn [length] in T. lia.
    + intros N. rewrite (proj2 (find_first_none (bs "eexec") ltac:(discriminate) d) N) in F. discriminate F.
  - cbn [bind l1 length1]. intros E. apply ok_inj in E. apply pair_equal_spec in E as [<- <-]. split.
    + intros _ a b. apply find_first_none; [discriminate|exact F].
    + intros _. exists (Z.of_nat (length d)), 0, 0. split; [reflexivity|]. split; [reflexivity|]. split; [reflexivity|]. lia.
Qed.
Print Assumptions C167_parts_refuted.
(** The lengths that a font was read with are written again *)
Theorem C167_given fuel a b c cid d : d <> [] -> exists file, embed fuel (SGiven a b c) KType1 cid d = Ok (bs "FontFile", file) /\
  ((a + b + c)%nat = length d -> tells_parts file d).
Proof.
  intros N. destruct d as [|y d]; [destruct (N eq_refl)|]. eexists. split; [reflexivity|]. intros E. exists (Z.of_nat a), (Z.of_nat b), (Z.of_nat c).
  split; [reflexivity|]. split; [reflexivity|]. split; [reflexivity|]. lia.
Qed.
Print Assumptions C167_given.

(** ** Other kinds *)

Theorem C167_truetype fuel s cid d : d <> [] -> exists file, embed fuel s KTrueType cid d = Ok (bs "FontFile2", file) /\
  dict_get (bs "Length1") file = Some (ONum (Z.of_nat (length d))).
Proof. intros N. destruct d as [|y d]; [destruct (N eq_refl)|]. eexists. split; reflexivity. Qed.
Print Assumptions C167_truetype.
Theorem C167_cff fuel s d cid : d <> [] -> exists file, embed fuel s KCff cid d = Ok (bs "FontFile3", file) /\
  tells_kind file (if cid then bs "CIDFontType0C" else bs "Type1C").
Proof. intros N. destruct d as [|y d]; [destruct (N eq_refl)|]. eexists. split; [reflexivity|]. destruct cid; reflexivity. Qed.
Print Assumptions C167_cff.
(** The name of the kind of an OpenType file is not written, though it is required *)
Theorem C167_opentype_refuted fuel s cid d : d <> [] -> exists file, embed fuel s KOpenType cid d = Ok (bs "FontFile3", file) /\ forall n, ~ tells_kind file n.
Proof. intros N. destruct d as [|y d]; [destruct (N eq_refl)|]. eexists. split; [reflexivity|]. intros n E. discriminate E. Qed.
Print Assumptions C167_opentype_refuted.
(** Nothing is written for fonts without a file and for those of another kind *)
Theorem C167_refused fuel s k cid d : d = [] \/ k = KType3 \/ k = KNone -> exists e, embed fuel s k cid d = Err e.
Proof. intros [->|[->| ->]]; [eexists; reflexivity| |]; destruct d; eexists; reflexivity. Qed.
Print Assumptions C167_refused.

Definition little : list Z := bs "%!PS-AdobeFont-1.0: Little" ++ [10] ++ bs "currentfile eexec" ++ [10; 217; 214; 111; 99].
Example C167_case :
  clear_text little (bs "%!PS-AdobeFont-1.0: Little" ++ [10] ++ bs "currentfile ") [10; 217; 214; 111; 99] /\
  find_first (bs "eexec") little = Some 39%nat /\ embed 2000 SFree KType1 false little = Fuel /\
  embed 9 SFree KTrueType false [0; 1; 0; 0] = Ok (bs "FontFile2", [(bs "Filter", OName (bs "FlateDecode")); (bs "Length1", ONum 4)]) /\
  embed 9 SFree KOpenType false [0; 1; 0; 0] = Ok (bs "FontFile3", [(bs "Filter", OName (bs "FlateDecode"))]).
Proof.
  split; [|repeat split; vm_compute; reflexivity]. split; [reflexivity|]. intros a' b' E.
  destruct (Nat.le_gt_cases 39 (length a')) as [L|L]; [exact L|]. exfalso.
  assert (K : forallb (fun n => negb (starts (bs "eexec") (skipn n little))) (seq 0 39) = true) by (vm_compute; reflexivity).
  rewrite forallb_forall in K. specialize (K (length a') ltac:(apply in_seq; lia)). rewrite E in K. rewrite skipn_app, skipn_all, Nat.sub_diag in K.
  cbn [skipn app] in K. rewrite (proj2 (starts_spec (bs "eexec") _)) in K; [discriminate K|exists b'; reflexivity].
Qed.
