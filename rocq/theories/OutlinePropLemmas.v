(** Outlines: whole subtrees, histories, loading *)
From Verif Require Import Base ChainProofs OutlineModel OutlineSpec OutlineProofs OutlineOpProofs.
Local Open Scope Z_scope.

Lemma under_ge K n i j : forest K n -> under K i j -> i <= j.
Proof. intros (_ & _ & F3 & _) U. induction U as [|p j U IH J]; [lia|]. apply F3 in J as [J _]. lia. Qed.
Lemma under_dec K n i : forest K n -> forall j q, In j (K q) -> under K i j \/ ~ under K i j.
Proof.
  intros F. pose proof F as (F1 & F2 & F3 & F4).
  assert (X : forall m j q, (Z.to_nat (j - i) <= m)%nat -> In j (K q) -> under K i j \/ ~ under K i j).
  { induction m as [|m IH]; intros j q L J.
    - destruct (Z.eq_dec j i) as [->|N]; [left; constructor|]. right. intros U. apply (under_ge K n) in U; [|exact F]. lia.
    - destruct (Z.eq_dec j i) as [->|N]; [left; constructor|]. destruct (Z_lt_le_dec j i) as [Lt|Ge]; [right; intros U; apply (under_ge K n) in U; [lia|exact F]|].
      destruct q as [p|].
      + destruct (F3 p j J) as [PL (r & R)]. destruct (IH p r) as [U|U]; [lia|exact R|left; econstructor; eassumption|]. right. intros V. inversion V as [E|p' j' U' J' E]; [congruence|].
        subst j'. assert (X : Some p = Some p') by (eapply F2; eassumption). injection X as <-. exact (U U').
      + right. intros V. inversion V as [E|p' j' U' J' E]; [congruence|]. subst j'. assert (X : None = Some p') by (eapply F2; eassumption). discriminate. }
  intros j q J. eapply X; [apply le_n|exact J].
Qed.
(** A child first, then its parent *)
Lemma erased_twice K n i q c K1 K2 : forest K n -> In i (K q) -> In c (K (Some i)) -> step K n (CErase c) K1 n -> step K1 n (CErase i) K2 n -> step K n (CErase i) K2 n.
Proof.
  intros F I C S1 S2. inversion S1 as [| |? q1 ? C1 G1 R1]; subst. inversion S2 as [| |? q2 ? I2 G2 R2]; subst. pose proof F as (F1 & F2 & F3 & F4).
  assert (CI : i < c) by (apply F3 in C; tauto).
  assert (NI : ~ under K c i) by (intros U; apply (under_ge K n) in U; [lia|exact F]).
  assert (SUB : forall j, under K c j -> under K i j). { intros j U. induction U as [|p j U IH J]; [econstructor; [constructor|exact C]|econstructor; eassumption]. }
  assert (KEEP : forall p, ~ gone K c p -> p <> Some i -> K1 p = K p). { intros p G N. rewrite R1 by exact G. apply notin_remove. intros X. apply N. eapply F2; eassumption. }
  (* below i in K1 is below i, but not below c *)
  assert (U1 : forall j, under K1 i j -> under K i j /\ ~ under K c j).
  { intros j U. induction U as [|p j U [IH1 IH2] J]; [split; [constructor|exact NI]|].
    assert (NG : ~ gone K c (Some p)) by (intros (z & [= <-] & Z); exact (IH2 Z)). rewrite R1 in J by exact NG. apply in_remove in J as [J JC]. split; [econstructor; eassumption|].
    intros V. inversion V as [E|p' j' U' J' E]; [congruence|]. subst j'. assert (X : Some p = Some p') by (eapply F2; eassumption). injection X as <-. exact (IH2 U'). }
  assert (U2 : forall j, under K i j -> ~ under K c j -> under K1 i j).
  { intros j U. induction U as [|p j U IH J]; intros N; [constructor|]. assert (NP : ~ under K c p) by (intros X; apply N; econstructor; eassumption).
    apply (u_kid _ _ p); [apply IH, NP|]. rewrite R1 by (intros (z & [= <-] & Z); exact (NP Z)). apply in_in_remove; [intros ->; apply N; constructor|exact J]. }
  eapply s_erase; [exact I| |].
  - intros p (j & -> & U). assert (LV : (exists r, In j (K r)) \/ True) by auto.
    assert (D : under K c j \/ ~ under K c j). { destruct (Z.eq_dec j i) as [->|N]; [auto|]. inversion U as [E|p' j' U' J' E]; [congruence|]. subst j'. eapply under_dec; [exact F|exact J']. }
    destruct D as [D|D].
    + assert (X : K1 (Some j) = []) by (apply G1; exists j; auto). assert (NG : ~ gone K1 i (Some j)) by (intros (z & [= <-] & Z); apply U1 in Z; tauto). rewrite R2 by exact NG. rewrite X. reflexivity.
    + apply G2. exists j. split; [reflexivity|]. apply U2; assumption.
  - intros p G. assert (NC : ~ gone K c p) by (intros (j & -> & U); apply G; exists j; auto). assert (N1 : ~ gone K1 i p) by (intros (j & -> & U); apply G; exists j; split; [reflexivity|]; apply U1, U).
    rewrite R2 by exact N1. rewrite KEEP; [reflexivity|exact NC|]. intros ->. apply G. exists i. split; [reflexivity|constructor].
Qed.
Lemma erase_ok : forall m s K i q, (Z.to_nat (top s - i) <= m)%nat -> matches s K -> In i (K q) ->
  exists N s' K', (forall fuel, (N <= fuel)%nat -> erase fuel s i = Ok s') /\ step K (top s) (CErase i) K' (top s) /\ top s' = top s /\ matches s' K'.
Proof.
  induction m as [|m IHm]; [intros s K i q L (( _ & _ & _ & F4) & _) I; apply F4 in I; lia|].
  assert (X : forall k s K i q, (length (K (Some i)) <= k)%nat -> (Z.to_nat (top s - i) <= S m)%nat -> matches s K -> In i (K q) ->
    exists N s' K', (forall fuel, (N <= fuel)%nat -> erase fuel s i = Ok s') /\ step K (top s) (CErase i) K' (top s) /\ top s' = top s /\ matches s' K').
  { induction k as [|k IHk]; intros s K i q LK L M I.
    - destruct (K (Some i)) eqn:E; [|cbn in LK; lia]. destruct (erase_leaf s K i q M I E) as (s' & K' & A & B & C & D). exists 1%nat, s', K'. split; [|auto]. intros [|fuel] Fu; [lia|apply A].
    - destruct (K (Some i)) as [|c rest] eqn:E.
      { destruct (erase_leaf s K i q M I E) as (s' & K' & A & B & C & D). exists 1%nat, s', K'. split; [|auto]. intros [|fuel] Fu; [lia|apply A]. }
      pose proof M as (F & LM & LD & LV). pose proof F as (F1 & F2 & F3 & F4). assert (C : In c (K (Some i))) by (rewrite E; left; reflexivity). destruct (F3 i c C) as [IC _].
      pose proof (F4 _ _ C) as CT. destruct (IHm s K c (Some i)) as (N1 & s1 & K1 & A1 & B1 & C1 & D1); [lia|exact M|exact C|].
      inversion B1 as [| |? q1 ? C' G1 R1]; subst.
      assert (NI : ~ under K c i) by (intros U; apply (under_ge K (top s)) in U; [lia|exact F]).
      assert (KR : K1 (Some i) = rest). { rewrite R1 by (intros (z & [= <-] & Z); exact (NI Z)). rewrite E. specialize (F1 (Some i)). rewrite E in F1. apply (remove_mid [] rest c F1). }
      assert (I1 : In i (K1 q)). { rewrite R1; [apply in_in_remove; [lia|exact I]|]. intros (z & -> & Z). apply NI. econstructor; eassumption. }
      destruct (IHk s1 K1 i q) as (N2 & s2 & K2 & A2 & B2 & C2 & D2); [rewrite KR; cbn in LK; lia|lia|exact D1|exact I1|].
      exists (S (Nat.max N1 N2)), s2, K2. split; [|split; [|split; [congruence|exact D2]]].
      + intros [|fuel] Fu; [lia|]. cbn [erase]. destruct (in_place K q i I) as (a & b & P). rewrite (item_ok s i _ (LM q a i b P)). cbn [bind place first]. rewrite E. cbn [hd_error]. rewrite A1 by lia. cbn [bind]. apply A2. lia.
      + rewrite C1 in B2. exact (erased_twice K (top s) i q c K1 K2 F I C B1 B2). }
  intros s K i q L M I. eapply X; [apply le_n|exact L|exact M|exact I].
Qed.

(** ** Histories *)
Lemma step_ok s K c : matches s K -> (exists q, In (match c with CChild i => i | CNext i => i | CErase i => i end) (K q)) ->
  exists N s' K', (forall fuel, (N <= fuel)%nat -> run1 fuel s c = Ok s') /\ step K (top s) c K' (top s') /\ matches s' K'.
Proof.
  intros M (q & I). destruct c as [i|i|i]; cbn [run1].
  - destruct (child_ok s K i q M I) as (s' & K' & A & B & C). exists O, s', K'. split; [intros fuel _; rewrite A; reflexivity|auto].
  - destruct (next_ok s K i q M I) as (s' & K' & A & B & C). exists O, s', K'. split; [intros fuel _; rewrite A; reflexivity|auto].
  - destruct (erase_ok _ s K i q (le_n _) M I) as (N & s' & K' & A & B & C & D). exists N, s', K'. split; [exact A|]. rewrite C. auto.
Qed.
Lemma matches_ext s K K' : (forall p, K' p = K p) -> matches s K -> matches s K'.
Proof.
  intros E ((F1 & F2 & F3 & F4) & LM & LD & LV). split; [|split; [|split]].
  - split; [|split; [|split]].
    + intros p. rewrite E. apply F1.
    + intros p q i. rewrite !E. apply F2.
    + intros p i. rewrite E. intros I. destruct (F3 p i I) as [L (q & Q)]. split; [exact L|exists q; rewrite E; exact Q].
    + intros p i. rewrite E. apply F4.
  - intros p a i b. rewrite E. intros P. unfold place. rewrite !E. apply (LM p a i b P).
  - intros p a i b. rewrite E. intros P. unfold place. rewrite !E. apply (LD p a i b P).
  - intros i I. destruct (LV i I) as (p & Q). exists p. rewrite E. exact Q.
Qed.
Lemma gone_dec K n i p : forest K n -> (exists q, In i (K q)) -> gone K i p \/ ~ gone K i p \/ K p = [].
Proof.
  intros F (q & I). destruct p as [j|]; [|right; left; intros (j & X & _); discriminate]. pose proof F as (_ & _ & F3 & _).
  destruct (K (Some j)) as [|x l] eqn:E; [auto|]. destruct (F3 j x) as [_ (r & R)]; [rewrite E; left; reflexivity|]. destruct (under_dec K n i F j r R) as [U|U]; [left; exists j; auto|]. right. left. intros (z & [= <-] & Z). exact (U Z).
Qed.
Lemma step_unique s K c K1 n1 K2 n2 : matches s K -> step K (top s) c K1 n1 -> step K (top s) c K2 n2 -> (forall p, K1 p = K2 p) /\ n1 = n2.
Proof.
  intros (F & _) S1 S2. pose proof F as (F1 & F2 & F3 & F4). inversion S1 as [i q K' I E O|i q a b K' P E O|i q K' I G R]; subst; inversion S2 as [i2 q2 K2' I2 E2 O2|i2 q2 a2 b2 K2' P2 E2 O2|i2 q2 K2' I2 G2 R2]; subst; (split; [|reflexivity]); intros p.
  - destruct (peq p (Some i)) as [->|N]; [congruence|rewrite O, O2 by exact N; reflexivity].
  - assert (q = q2) as <-. { apply (F2 q q2 i); [rewrite P|rewrite P2]; apply in_app_iff; right; left; reflexivity. }
    pose proof (F1 q) as ND. rewrite P in ND, P2. destruct (app_split _ _ _ _ _ ND P2) as [<- <-]. destruct (peq p q) as [->|N]; [congruence|rewrite O, O2 by exact N; reflexivity].
  - destruct (gone_dec K (top s) i p F (ex_intro _ q I)) as [X|[X|X]]; [rewrite G, G2 by exact X; reflexivity|rewrite R, R2 by exact X; reflexivity|].
    destruct p as [j|]; [|rewrite R, R2 by (intros (j & Y & _); discriminate); reflexivity].
    (* without children nothing changes either way *)
    assert (D : forall K3, (forall p, gone K i p -> K3 p = []) -> (forall p, ~ gone K i p -> K3 p = remove Z.eq_dec i (K p)) -> ~ ~ (K3 (Some j) = [])).
    { intros K3 H1 H2 N. apply N. apply H1. exfalso. apply N. rewrite H2, X; [reflexivity|]. intros Z. apply N, H1, Z. }
    assert (E1 : K1 (Some j) = []) by (destruct (K1 (Some j)) eqn:Y; [reflexivity|]; exfalso; apply (D K1 G R); intros Z; congruence).
    assert (E2 : K2 (Some j) = []) by (destruct (K2 (Some j)) eqn:Y; [reflexivity|]; exfalso; apply (D K2 G2 R2); intros Z; congruence). congruence.
Qed.
Lemma step_live K n c K' n' : step K n c K' n' -> exists q, In (match c with CChild i => i | CNext i => i | CErase i => i end) (K q).
Proof. intros S1. inversion S1; subst; eauto. exists q. match goal with E : K q = _ |- _ => rewrite E end. apply in_app_iff. right. left. reflexivity. Qed.
Lemma history K n : forall l s K' n', matches s K -> n = top s -> steps K n l K' n' -> exists N s', (forall fuel, (N <= fuel)%nat -> run fuel s l = Ok s') /\ matches s' K' /\ n' = top s'.
Proof.
  intros l. revert K n. induction l as [|c l IH]; intros K n s K' n' M T S1; inversion S1 as [|? ? K1 n1 ? ? St Sr]; subst.
  - exists O, s. split; [reflexivity|]. auto.
  - destruct (step_ok s K c M (step_live _ _ _ _ _ St)) as (N1 & s1 & K1' & A & B & C). destruct (step_unique s K c _ _ _ _ M St B) as [E ET]. apply (matches_ext s1 _ K1 E) in C.
    destruct (IH K1 n1 s1 K' n' C ET Sr) as (N2 & s2 & A2 & B2 & C2). exists (Nat.max N1 N2), s2. split; [|auto]. intros fuel Fu. cbn [run]. rewrite A by lia. cbn [bind]. apply A2. lia.
Qed.
Lemma chain_fwd d K p : layer d K -> forall b a, K p = a ++ b -> chain (of d next) (hd_error b) b.
Proof.
  intros L. induction b as [|i b IH]; intros a P; cbn [chain hd_error]; [reflexivity|]. split; [reflexivity|]. unfold of. rewrite (L p a i b P). cbn [next place]. apply (IH (a ++ [i])). rewrite <- app_assoc. exact P.
Qed.
Lemma chain_bwd d K p : layer d K -> forall a b, K p = rev a ++ b -> chain (of d prev) (hd_error a) a.
Proof.
  intros L. induction a as [|i a IH]; intros b P; cbn [chain hd_error]; [reflexivity|]. split; [reflexivity|]. cbn [rev] in P. rewrite <- app_assoc in P. unfold of. rewrite (L p (rev a) i b P). cbn [prev place]. unfold last_opt. rewrite rev_involutive. apply (IH (i :: b)), P.
Qed.
Lemma layer_linked d K q i : layer d K -> In i (K q) -> linked d K i.
Proof.
  intros L I. destruct (in_place K q i I) as (a & b & P). pose proof (L q a i b P) as E. split; [|split].
  - unfold of at 2. rewrite E. cbn [first place]. apply (chain_fwd d K (Some i) L _ []). reflexivity.
  - unfold of at 2. rewrite E. cbn [last_ place]. unfold last_opt. apply (chain_bwd d K (Some i) L _ []). rewrite rev_involutive, app_nil_r. reflexivity.
  - intros j J. destruct (in_place K _ j J) as (a' & b' & P'). unfold of. rewrite (L _ _ _ _ P'). reflexivity.
Qed.

(** ** Loading *)
Lemma under_both K n x y j : forest K n -> under K x j -> under K y j -> under K x y \/ under K y x.
Proof.
  intros (_ & F2 & _) U. induction U as [|p j U IH J]; intros V; [auto|]. inversion V as [E|p' j' V' J' E]; [left; econstructor; eassumption|]. subst j'. assert (X : Some p = Some p') by (eapply F2; eassumption). injection X as <-. apply IH, V'.
Qed.
Lemma siblings_apart K n q x y j : forest K n -> In x (K q) -> In y (K q) -> x <> y -> under K x j -> under K y j -> False.
Proof.
  intros F X Y N U V. pose proof F as (_ & F2 & F3 & _).
  assert (W : forall x y, In x (K q) -> In y (K q) -> x <> y -> under K x y -> False).
  { clear x y X Y N U V. intros x y X Y N U. inversion U as [E|p j' U' J E]; [congruence|]. subst j'. assert (Q : q = Some p) by (eapply F2; eassumption). subst q. apply F3 in X as [X _]. apply (under_ge K n) in U'; [lia|exact F]. }
  destruct (under_both K n x y j F U V) as [Z|Z]; [eapply (W x y); eassumption|eapply (W y x); try eassumption; congruence].
Qed.
Definition no_last (l : links) : links := mk_links (up l) (prev l) (next l) (first l) None.
Lemma under_split K n i j : forest K n -> under K i j -> j = i \/ exists c, In c (K (Some i)) /\ under K c j.
Proof. intros F U. induction U as [|p j U IH J]; [auto|]. right. destruct IH as [->|(c & C & V)]; [exists j; split; [exact J|constructor]|]. exists c. split; [exact C|econstructor; eassumption]. Qed.
Lemma load_ok d K n : layer d K -> forest K n -> forall g ch, fits K g ch -> forall p a i l m c, K p = a ++ ch -> ch = i :: l -> exists m' c', load g d i p (last_opt a) (m, c) = Ok (m', c') /\
  (forall x j, In x ch -> under K x j -> exists lk, d j = Some lk /\ m' j = Some (no_last lk)) /\ (forall j, (forall x, In x ch -> ~ under K x j) -> m' j = m j).
Proof.
  intros L F. pose proof F as (F1 & F2 & F3 & F4). induction 1 as [g|g i0 l0 FK IHK FL IHL]; intros p a i l m c P E; [discriminate|]. injection E as -> ->. cbn [load]. pose proof (L p a i l P) as DI. rewrite DI. cbn [first next place].
  (* children *)
  assert (A1 : exists m1 c1, match hd_error (K (Some i)) with Some f => load g d f (Some i) None (m, c) | None => Ok (m, c) end = Ok (m1, c1) /\
    (forall x j, In x (K (Some i)) -> under K x j -> exists lk, d j = Some lk /\ m1 j = Some (no_last lk)) /\ (forall j, (forall x, In x (K (Some i)) -> ~ under K x j) -> m1 j = m j)).
  { destruct (K (Some i)) as [|f t] eqn:EK; cbn [hd_error]; [exists m, c; split; [reflexivity|]; split; [intros x j []|reflexivity]|]. apply (IHK (Some i) [] f t m c EK eq_refl). }
  destruct A1 as (m1 & c1 & E1 & B1 & C1). rewrite E1. cbn [bind].
  assert (PL : K p = (a ++ [i]) ++ l) by (rewrite <- app_assoc; exact P).
  assert (A2 : exists m2 c2, match hd_error l with Some f => load g d f p (Some i) (m1, c1) | None => Ok (m1, c1) end = Ok (m2, c2) /\
    (forall x j, In x l -> under K x j -> exists lk, d j = Some lk /\ m2 j = Some (no_last lk)) /\ (forall j, (forall x, In x l -> ~ under K x j) -> m2 j = m1 j)).
  { destruct l as [|f t]; cbn [hd_error]; [exists m1, c1; split; [reflexivity|]; split; [intros x j []|reflexivity]|]. destruct (IHL p (a ++ [i]) f t m1 c1 PL eq_refl) as (m2 & c2 & R). rewrite last_opt_app in R. exists m2, c2. exact R. }
  destruct A2 as (m2 & c2 & E2 & B2 & C2). rewrite E2. cbn [bind fst snd]. eexists _, _. split; [reflexivity|].
  assert (IP : In i (K p)) by (rewrite P; apply in_app_iff; right; left; reflexivity). assert (LP : forall x, In x l -> In x (K p) /\ x <> i).
  { intros x X. split; [rewrite P; apply in_app_iff; right; right; exact X|]. intros ->. specialize (F1 p). rewrite P in F1. apply NoDup_remove_2 in F1. apply F1, in_app_iff. auto. }
  split.
  - intros x j [<-|X] U.
    + destruct (under_split K n i j F U) as [->|(k & Kk & V)]; [exists (place K p a i l); split; [exact DI|apply upd_same]|].
      assert (JI : j <> i). { intros ->. apply (under_ge K n) in V; [|exact F]. apply F3 in Kk as [Kk _]. lia. } destruct (B1 k j Kk V) as (lk & D & Mj). exists lk. split; [exact D|]. rewrite upd_other by exact JI. rewrite C2; [exact Mj|].
      intros x X W. destruct (LP x X) as [XP XI]. eapply (siblings_apart K n p i x j); eauto.
    + destruct (LP x X) as [XP XI]. assert (JI : j <> i). { intros ->. eapply (siblings_apart K n p x i i); eauto. constructor. } destruct (B2 x j X U) as (lk & D & Mj). exists lk. split; [exact D|]. rewrite upd_other by exact JI. exact Mj.
  - intros j J. assert (JI : j <> i) by (intros ->; apply (J i); [left; reflexivity|constructor]). rewrite upd_other by exact JI. rewrite C2 by (intros x X; apply J; right; exact X). apply C1. intros x X U. apply (J i); [left; reflexivity|].
    clear - X U. induction U as [|p j U IH Jk]; [econstructor; [constructor|exact X]|econstructor; eassumption].
Qed.
Lemma load_outlines_ok s K root : matches s K -> K None = [root] -> fits K 256 [root] -> exists s', load_outlines (dics s) root (top s) = Ok s' /\ dics s' = dics s /\
  forall i, under K root i -> exists l, dics s i = Some l /\ mems s' i = Some (mk_links (up l) (prev l) (next l) (first l) None).
Proof.
  intros (F & LM & LD & LV) KR FT. destruct (load_ok (dics s) K (top s) LD F 256 [root] FT None [] root [] (fun _ => None) 0 KR eq_refl) as (m' & c' & E & A & _). unfold load_outlines. change None with (last_opt []) at 2. rewrite E. cbn [bind fst].
  eexists. split; [reflexivity|]. split; [reflexivity|]. intros i U. destruct (A root i (or_introl eq_refl) U) as (lk & D & M). exists lk. split; [exact D|exact M].
Qed.
Lemma load_total d : forall g i p v a, (exists x, load g d i p v a = Ok x) \/ exists e, load g d i p v a = Err e.
Proof.
  induction g as [|g IH]; intros i p v a; cbn [load]; [eauto|]. destruct (d i) as [l|]; [|eauto].
  assert (A : (exists x, match first l with Some f => load g d f (Some i) None a | None => Ok a end = Ok x) \/ exists e, match first l with Some f => load g d f (Some i) None a | None => Ok a end = Err e) by (destruct (first l); [apply IH|eauto]).
  destruct A as [[x ->]|[e ->]]; cbn [bind]; [|eauto].
  assert (A : (exists y, match next l with Some f => load g d f p (Some i) x | None => Ok x end = Ok y) \/ exists e, match next l with Some f => load g d f p (Some i) x | None => Ok x end = Err e) by (destruct (next l); [apply IH|eauto]).
  destruct A as [[y ->]|[e ->]]; cbn [bind]; eauto.
Qed.
Lemma load_outlines_total d root n : (exists s, load_outlines d root n = Ok s) \/ exists e, load_outlines d root n = Err e.
Proof. unfold load_outlines. destruct (load_total d 256 root None None (fun _ => None, 0)) as [[x ->]|[e ->]]; cbn [bind]; eauto. Qed.

(** ** A new outline, and long lists *)
Lemma start_matches : matches start only_root.
Proof.
  assert (L : layer (upd (fun _ => None) 0 (Some no_links)) only_root).
  { intros p a i b P. destruct p as [p|]; cbn in P; [destruct a; discriminate|]. destruct a as [|x [|y a]]; [|discriminate|discriminate]. injection P as <- <-. reflexivity. }
  split; [|split; [exact L|split; [exact L|]]].
  - split; [|split; [|split]].
    + intros [p|]; repeat constructor; cbn; tauto.
    + intros [p|] [q|] i; cbn; tauto.
    + intros p i [].
    + intros [p|] i; cbn; [tauto|]. intros [<-|[]]. lia.
  - intros i I. exists None. left. cbn in I. destruct (Z.eq_dec i 0) as [->|N]; [reflexivity|]. rewrite upd_other in I by exact N. congruence.
Qed.
Lemma load_long d K : layer d K -> forall g p a b i l m, K p = a ++ b -> b = i :: l -> (forall x, In x b -> K (Some x) = []) -> (g < length b)%nat -> load g d i p (last_opt a) m = Err EInvalidXRef.
Proof.
  intros L. induction g as [|g IH]; intros p a b i l m P E NK LG; [reflexivity|]. subst b. cbn [load]. rewrite (L p a i l P). cbn [first next place]. rewrite (NK i) by (left; reflexivity). cbn [hd_error bind]. cbn [length] in LG. destruct l as [|j l]; [cbn in LG; lia|]. cbn [hd_error].
  rewrite <- (last_opt_app a i). rewrite (IH p (a ++ [i]) (j :: l) j l m); [reflexivity|rewrite <- app_assoc; exact P|reflexivity|intros x X; apply NK; right; exact X|lia].
Qed.
Lemma many_children : forall n s K, matches s K -> In 0 (K None) -> (forall x, In x (K (Some 0)) -> K (Some x) = []) ->
  exists s' K', run 0 s (repeat (CChild 0) n) = Ok s' /\ matches s' K' /\ In 0 (K' None) /\ K' None = K None /\ length (K' (Some 0)) = Nat.add (length (K (Some 0))) n /\ (forall x, In x (K' (Some 0)) -> K' (Some x) = []).
Proof.
  induction n as [|n IH]; intros s K M I N; cbn [repeat run].
  - exists s, K. split; [reflexivity|]. split; [exact M|]. split; [exact I|]. split; [reflexivity|]. split; [lia|exact N].
  - cbn [run1]. destruct (child_ok s K 0 None M I) as (s1 & K1 & A & B & C). rewrite A. cbn [bind snd]. inversion B as [? q ? I' E O ET| |]; subst.
    pose proof M as ((F1 & F2 & F3 & F4) & _).
    destruct (IH s1 K1 C) as (s' & K' & A' & B' & C' & D' & E' & F'); [rewrite O by discriminate; exact I| |].
    { intros x X. rewrite E in X. apply in_app_iff in X as [X|[<-|[]]].
      - pose proof (F3 0 x X) as [X0 _]. rewrite O by (intros [= ->]; lia). apply N, X.
      - apply F4 in I. rewrite O by (intros [= Y]; lia). destruct (K (Some (top s))) as [|y t] eqn:Y; [reflexivity|]. destruct (F3 (top s) y) as [_ (r & R)]; [rewrite Y; left; reflexivity|]. apply F4 in R. lia. }
    exists s', K'. split; [exact A'|]. split; [exact B'|]. split; [exact C'|]. split; [rewrite D', O by discriminate; reflexivity|]. split; [rewrite E', E, app_length; cbn; lia|exact F'].
Qed.
Lemma long_refuted n : (256 <= n)%nat -> exists s, run 0 start (repeat (CChild 0) n) = Ok s /\ load_outlines (dics s) 0 (top s) = Err EInvalidXRef.
Proof.
  intros G. destruct (many_children n start only_root start_matches) as (s & K & A & (F & LM & LD & LV) & C & D & E & N); [left; reflexivity|intros x []|]. exists s. split; [exact A|].
  unfold load_outlines. change 256%nat with (S 255). generalize dependent 255%nat. intros g G. cbn [load]. cbn [only_root length] in E, D. rewrite (LD None [] 0 [] D). cbn [first next place hd_error]. destruct (K (Some 0)) as [|i l] eqn:EK; [cbn in E; lia|]. cbn [hd_error].
  change None with (last_opt []) at 1. rewrite (load_long (dics s) K LD g (Some 0) [] (i :: l) i l); [reflexivity|exact EK|reflexivity|exact N|lia].
Qed.
(** Each object is reached by two ways *)
Definition twice (k : Z) : Z -> option links := fun i => if (0 <=? i) && (i <=? k) then Some (if i <? k then mk_links None None (Some (i + 1)) (Some (i + 1)) None else no_links) else None.
Lemma twice_work k : forall n g i p v m c, 0 <= i -> i + Z.of_nat n = k -> (n < g)%nat -> exists m', load g (twice k) i p v (m, c) = Ok (m', c + 2 ^ (Z.of_nat n + 1) - 1).
Proof.
  induction n as [|n IH]; intros [|g] i p v m c I E G; try lia; cbn [load]; unfold twice at 1; destruct (Z.leb_spec 0 i); try lia; destruct (Z.leb_spec i k); try lia; cbn [andb]; destruct (Z.ltb_spec i k); try lia.
  - cbn [first next no_links bind fst snd]. eexists. f_equal. f_equal. cbn. lia.
  - cbn [first next]. destruct (IH g (i + 1) (Some i) None m c) as (m1 & E1); [lia|lia|lia|]. rewrite E1. cbn [bind]. destruct (IH g (i + 1) p (Some i) m1 (c + 2 ^ (Z.of_nat n + 1) - 1)) as (m2 & E2); [lia|lia|lia|]. rewrite E2. cbn [bind fst snd]. eexists. f_equal. f_equal.
    replace (Z.of_nat (S n) + 1) with (Z.succ (Z.of_nat n + 1)) by lia. rewrite Z.pow_succ_r by lia. lia.
Qed.
Lemma work_refuted k : (k <= 255)%nat -> exists d m, (forall i, d i <> None <-> 0 <= i <= Z.of_nat k) /\ load 256 d 0 None None (fun _ => None, 0) = Ok (m, 2 ^ (Z.of_nat k + 1) - 1).
Proof.
  intros G. destruct (twice_work (Z.of_nat k) k 256 0 None None (fun _ => None) 0) as (m & E); [lia|lia|lia|]. exists (twice (Z.of_nat k)), m. split; [|exact E].
  intros i. unfold twice. destruct (Z.leb_spec 0 i), (Z.leb_spec i (Z.of_nat k)); cbn [andb]; split; intros; try discriminate; try lia; congruence.
Qed.

(** ** InsertChild *)
Lemma insert_unchecked fuel s this it : insert_child fuel s this it <> Err EOutlineItemAlreadyPresent.
Proof.
  unfold insert_child. assert (C : forall x, check_parent fuel s this it (Some it) None None = Ok x -> same_ptr (fst x) (snd x) = false).
  { intros x. destruct fuel as [|fuel]; [discriminate|]. cbn [check_parent]. destruct (root_of fuel s it) as [r| | |]; cbn [bind]; try discriminate. destruct (r =? it); [intros H; apply ok_inj in H as <-; reflexivity|]. destruct fuel as [|fuel]; [discriminate|]. cbn [check_parent]. intros H; apply ok_inj in H as <-; reflexivity. }
  assert (NE : forall l e, link_child s l e <> Err EOutlineItemAlreadyPresent).
  { intros l e. unfold link_child, set_first, set_last, set_next, set_prev, item, change. repeat (match goal with |- context [match ?x with _ => _ end] => destruct x; cbn [bind] end; try discriminate). }
  assert (RO : forall f i, root_of f s i <> Err EOutlineItemAlreadyPresent).
  { induction f as [|f IH]; intros i; [discriminate|]. cbn [root_of]. unfold item. destruct (mems s i) as [l|]; cbn [bind]; [|discriminate]. destruct (up l); [apply IH|discriminate]. }
  assert (CE : check_parent fuel s this it (Some it) None None <> Err EOutlineItemAlreadyPresent).
  { destruct fuel as [|fuel]; [discriminate|]. cbn [check_parent]. specialize (RO fuel it). destruct (root_of fuel s it) as [r|e| |]; cbn [bind]; try discriminate; [|intros [= ->]; apply RO; reflexivity].
    destruct (r =? it); [discriminate|]. destruct fuel as [|fuel]; discriminate. }
  destruct (check_parent fuel s this it (Some it) None None) as [x|e| |]; cbn [bind]; try discriminate; [|congruence]. rewrite (C x eq_refl). apply NE.
Qed.
