(** Name trees: additions to whole trees, lookup, histories *)
From Coq Require Import String Sorting.Sorted.
From Verif Require Import Base ChainProofs TokModel DictProofs OwnModel ListModel PageModel PageSpec PageProofs NameModel NameSpec NameProofs NameOpProofs.
Local Open Scope Z_scope.
Local Notation dict := (list (list Z * obj)) (only parsing).
Local Notation ptrs ks := (map (fun k => ptr (nref k)) ks).
Local Notation keys_below key l := (Forall (fun e : entry => bytes_lt (snd (fst e)) key = true) l).

(** ** The kid for a key *)
Definition inside (key : list Z) (l : list entry) : Prop :=
  exists x : entry, hd_error l = Some x /\ bytes_lt key (snd (fst x)) = false /\ bytes_lt (snd (fst (last l x))) key = false.
Lemma sorted_last l x e : StronglySorted before l -> In e l -> e = last l x \/ before e (last l x).
Proof.
  induction 1 as [|a l S1 IH F]; intros I; [destruct I|]. destruct l as [|b l]; [destruct I as [->|[]]; left; reflexivity|]. change (last (a :: b :: l) x) with (last (b :: l) x).
  destruct I as [->|I]; [|apply IH, I]. right. rewrite Forall_forall in F. apply F. rewrite (last_default (b :: l) x b) by discriminate.
  destruct (exists_last (l := b :: l)) as (i & z & ->); [discriminate|]. rewrite last_last. apply in_app_iff. right. left. reflexivity.
Qed.
Lemma sorted_app_l l k : StronglySorted before (l ++ k) -> StronglySorted before l.
Proof. induction l as [|a l IH]; intros H; [constructor|]. cbn [app] in H. apply StronglySorted_inv in H as [H F]. constructor; [apply IH, H|]. apply Forall_app in F. tauto. Qed.
Lemma sorted_app_r l k : StronglySorted before (l ++ k) -> StronglySorted before k.
Proof. induction l as [|a l IH]; intros H; [exact H|]. cbn [app] in H. apply StronglySorted_inv in H as [H _]. apply IH, H. Qed.
Lemma last_in {A} (l : list A) x : l <> [] -> In (last l x) l.
Proof. intros N. destruct (exists_last N) as (i & z & ->). rewrite last_last. apply in_app_iff. right. left. reflexivity. Qed.
Lemma hd_ne {A} (l : list A) x : hd_error l = Some x -> l <> [].
Proof. intros H E. rewrite E in H. discriminate. Qed.
Lemma limits_check h r d key l : h r = Some (ODict d) -> limits false l d -> exists x : entry, hd_error l = Some x /\
  check_limits h r key = Ok (if bytes_lt key (snd (fst x)) then PBefore else if bytes_lt (snd (fst (last l x))) key then PAfter else PInside).
Proof.
  intros E (x & y & b & c & X & Y & L). exists x. split; [exact X|]. unfold check_limits. rewrite (dict_at_val h r d E). cbn [bind]. unfold has_key. rewrite L. rewrite (direct_array h _ d _ L). cbn [bind str_of].
  destruct (bytes_lt key (snd (fst x))); [reflexivity|]. rewrite Y. destruct (bytes_lt (snd (fst y)) key); reflexivity.
Qed.
Lemma all_below key l x : StronglySorted before l -> bytes_lt (snd (fst (last l x))) key = true -> keys_below key l.
Proof.
  intros S1 L. rewrite Forall_forall. intros e I. destruct (sorted_last l x e S1 I) as [->|B]; [exact L|]. eapply bytes_lt_trans; [exact B|exact L].
Qed.
Lemma choose_ok h key : forall ks done prev, Forall (stored h false) ks -> StronglySorted before (flat_map entries ks) ->
  keys_below key (flat_map entries done) -> prev = match done with [] => None | x :: _ => Some (nref (last done x)) end -> done ++ ks <> [] ->
  exists pre c post b, choose h key (ptrs ks) prev = Ok (nref c, b) /\ done ++ ks = pre ++ c :: post /\ keys_below key (flat_map entries pre) /\
    (post = [] \/ exists e, In e (entries c) /\ bytes_lt (snd (fst e)) key = false) /\ (b = true -> inside key (entries c)).
Proof.
  induction ks as [|k ks IH]; intros done prev F S1 B P N; cbn [map choose].
  - rewrite app_nil_r in *. destruct (exists_last N) as (i & z & ->). exists i, z, [], false. split.
    + rewrite P. destruct i as [|a i]; [reflexivity|]. cbn [app]. rewrite app_comm_cons, last_last. reflexivity.
    + split; [reflexivity|]. split; [rewrite flat_map_app in B; apply Forall_app in B; tauto|]. split; [auto|discriminate].
  - apply Forall_cons_iff in F as [Fk F]. pose proof Fk as Fk'. rewrite stored_iff in Fk'. destruct Fk' as [(d & E & _ & _ & Li) _].
    unfold ref_of, ptr at 1. cbn [bind]. rewrite <- surjective_pairing, E. destruct (limits_check h (nref k) d key (entries k) E Li) as (x & X & C). rewrite C. cbn [bind].
    cbn [flat_map] in S1. pose proof (hd_ne _ _ X) as NE.
    destruct (bytes_lt key (snd (fst x))) eqn:L1; [|destruct (bytes_lt (snd (fst (last (entries k) x))) key) eqn:L2].
    + exists done, k, ks, false. split; [reflexivity|]. split; [reflexivity|]. split; [exact B|]. split; [|discriminate]. right. exists x. split; [destruct (entries k); [discriminate|left; injection X; auto]|].
      apply lt_asym, L1.
    + destruct (IH (done ++ [k]) (Some (nref k)) F (sorted_app_r _ _ S1)) as (pre & c & post & b & R).
      * rewrite flat_map_app. apply Forall_app. split; [exact B|]. cbn [flat_map]. rewrite app_nil_r. eapply all_below; [apply (sorted_app_l _ _ S1)|exact L2].
      * destruct done as [|a dn]; [reflexivity|]. cbn [app]. rewrite app_comm_cons, last_last. reflexivity.
      * destruct done; discriminate.
      * exists pre, c, post, b. rewrite <- app_assoc in R. exact R.
    + exists done, k, ks, true. split; [reflexivity|]. split; [reflexivity|]. split; [exact B|]. split; [right; exists (last (entries k) x); split; [apply last_in, NE|exact L2]|].
      intros _. exists x. auto.
Qed.

(** Inside of the limits the first and the last key stay *)
Lemma put_inside k v l : StronglySorted before l -> inside (snd k) l -> exists x x' : entry, hd_error l = Some x /\ hd_error (put k v l) = Some x' /\ fst x = fst x' /\ fst (last l x) = fst (last (put k v l) x').
Proof.
  intros S1 (x & X & A & B). destruct l as [|e l]; [discriminate|]. injection X as ->. exists x.
  assert (HD : exists x' : entry, hd_error (put k v (x :: l)) = Some x' /\ fst x = fst x').
  { destruct x as [kx vx]. cbn [put fst] in *. rewrite A. destruct (beq (snd kx) (snd k)); eexists; split; reflexivity. }
  destruct HD as (x' & HX & FX). exists x'. split; [reflexivity|]. split; [exact HX|]. split; [exact FX|].
  assert (LA : forall l d d', l <> [] -> bytes_lt (snd (fst (last l d))) (snd k) = false -> fst (last l d) = fst (last (put k v l) d')).
  { clear. induction l as [|[ka va] l IH]; intros d d' N L; [congruence|]. cbn [put]. destruct (beq (snd ka) (snd k)) eqn:E.
    - destruct l as [|b l]; [reflexivity|]. change (last ((ka, va) :: b :: l) d) with (last (b :: l) d). change (last ((ka, v) :: b :: l) d') with (last (b :: l) d'). rewrite (last_default (b :: l) d d') by discriminate. reflexivity.
    - destruct (bytes_lt (snd k) (snd ka)) eqn:E2.
      + change (last ((k, v) :: (ka, va) :: l) d') with (last ((ka, va) :: l) d'). rewrite (last_default ((ka, va) :: l) d d') by discriminate. reflexivity.
      + destruct l as [|b l].
        * cbn [last fst] in L. rewrite (bytes_lt_total _ _ E L) in E2. discriminate.
        * change (last ((ka, va) :: b :: l) d) with (last (b :: l) d) in *. rewrite (IH d d' ltac:(discriminate) L). change ((ka, va) :: put k v (b :: l)) with ([(ka, va)] ++ put k v (b :: l)). rewrite last_app_ne by apply put_ne. reflexivity. }
  apply LA; [discriminate|exact B].
Qed.
Lemma limits_same (l l' : list entry) (x x' : entry) d : hd_error l = Some x -> hd_error l' = Some x' -> fst x = fst x' -> fst (last l x) = fst (last l' x') -> limits false l d -> limits false l' d.
Proof.
  intros X X' F L (y & z & b & c & Y & Z & G). rewrite X in Y. apply (f_equal (fun o => match o with Some e => e | None => x end)) in Y. cbn beta iota in Y. subst y z. exists x', (last l' x'), b, c. split; [exact X'|]. split; [reflexivity|]. rewrite <- F, <- L. exact G.
Qed.
Lemma limits_mid (pre mid mid' post : list entry) (x x' : entry) : hd_error mid = Some x -> hd_error mid' = Some x' -> fst x = fst x' -> fst (last mid x) = fst (last mid' x') ->
  forall d, limits false (pre ++ mid ++ post) d -> limits false (pre ++ mid' ++ post) d.
Proof.
  intros X X' F L d H. pose proof (hd_ne _ _ X) as NM. pose proof (hd_ne _ _ X') as NM'.
  assert (HD : exists a a' : entry, hd_error (pre ++ mid ++ post) = Some a /\ hd_error (pre ++ mid' ++ post) = Some a' /\ fst a = fst a').
  { destruct pre as [|p pre]; [|exists p, p; auto]. cbn [app]. rewrite !hd_app_ne by assumption. eauto. }
  destruct HD as (a & a' & A & A' & FA). eapply limits_same; [exact A|exact A'|exact FA| |exact H].
  destruct post as [|q post].
  - rewrite !app_nil_r. rewrite !last_app_ne by assumption. rewrite (last_default mid a x), (last_default mid' a' x') by assumption. exact L.
  - rewrite !app_assoc. rewrite !last_app_ne by discriminate. f_equal. apply last_default. discriminate.
Qed.

(** ** Additions below the root *)
Definition adds (k : str) (v : obj) (t : ntree) : Prop := forall n s p dp above pre post, (levels t <= n)%nat -> fresh s -> stored (dheap s) false t -> StronglySorted before (entries t) ->
  dheap s p = Some (ODict dp) -> sorted dp -> dict_get (bs "Kids") dp = Some (OArr (ptrs (pre ++ t :: post))) -> NoDup (p :: flat_map nrefs (pre ++ t :: post)) ->
  Forall (stored (dheap s) false) (pre ++ post) ->
  exists s' ts, add_value n s (nref t) (Some (p, above)) k v = Ok s' /\ flat_map entries ts = put k v (entries t) /\ after s s' t ts p dp above pre post.
Lemma after_change s s2 s' t t2 ts p dp above pre post : dnext s <= dnext s2 -> (forall q, ~ In q (nrefs t) -> fst q < dnext s -> dheap s2 q = dheap s q) ->
  (forall q, In q (nrefs t2) -> In q (nrefs t) \/ dnext s <= fst q) -> (levels t2 <= levels t)%nat -> after s2 s' t2 ts p dp above pre post -> after s s' t ts p dp above pre post.
Proof.
  intros D H R LV (A1 & A2 & A3 & A4 & A5 & A6 & A7 & A8 & A9). split; [exact A1|]. split; [lia|]. split; [exact A3|]. split; [exact A4|]. split; [exact A5|]. split; [|split; [|split; [|exact A9]]].
  - intros q Q. destruct (A6 q Q) as [X|X]; [apply R, X|right; lia].
  - intros q Q P L. rewrite A7; [apply H; assumption| |exact P|lia]. intros X. destruct (R q X); [tauto|lia].
  - intros x X. apply A8 in X. lia.
Qed.
Lemma node_step k v n s r ks top : Forall (adds k v) ks -> (levels (NNode r ks) <= S n)%nat -> fresh s -> stored (dheap s) top (NNode r ks) -> NoDup (nrefs (NNode r ks)) -> StronglySorted before (flat_map entries ks) ->
  exists c b s1 s2 ks', choose (dheap s) (snd k) (ptrs ks) None = Ok (c, b) /\ add_value n s c (Some (r, negb top)) k v = Ok s1 /\
    (if b then Ok s1 else set_limits_of s1 r true (negb top)) = Ok s2 /\
    fresh s2 /\ dnext s <= dnext s2 /\ stored (dheap s2) top (NNode r ks') /\ flat_map entries ks' = put k v (flat_map entries ks) /\ NoDup (nrefs (NNode r ks')) /\
    (forall q, In q (nrefs (NNode r ks')) -> In q (nrefs (NNode r ks)) \/ dnext s <= fst q) /\
    (forall q, ~ In q (nrefs (NNode r ks)) -> fst q < dnext s -> dheap s2 q = dheap s q) /\ (levels (NNode r ks') <= levels (NNode r ks))%nat.
Proof.
  intros IH LV FR HT ND SO. pose proof HT as HT'. rewrite stored_iff in HT'. cbn [kids_of nref] in HT'. destruct HT' as [(d & E & Sd & [NK Ki] & Li) K]. cbn [nref entries] in *.
  destruct (choose_ok (dheap s) (snd k) ks [] None K SO) as (pre & c & post & b & CH & EK & BP & BC & IN); [constructor|reflexivity|exact NK|]. cbn [app] in EK. subst ks.
  assert (LC : (levels c <= n)%nat). { cbn [levels] in LV. pose proof (levels_fold (pre ++ c :: post) c ltac:(apply in_app_iff; right; left; reflexivity)). lia. }
  rewrite flat_map_app in SO. cbn [flat_map] in SO. pose proof (sorted_app_l _ _ (sorted_app_r _ _ SO)) as SC.
  rewrite Forall_app in IH. destruct IH as [_ IH]. apply Forall_cons_iff in IH as [IH _]. pose proof K as K'. rewrite Forall_app in K'. destruct K' as [K1 K']. apply Forall_cons_iff in K' as [K2 K3].
  destruct (IH n s r d (negb top) pre post LC FR K2 SC E Sd Ki ND) as (s1 & ts & AD & EN & AF); [apply Forall_app; auto|].
  destruct AF as (F1 & D1 & ST & NT & NDT & RT & FT & LT & d1 & E1 & S1 & KI1 & LI1).
  exists (nref c), b, s1. set (ks' := pre ++ ts ++ post).
  assert (ENT : flat_map entries ks' = put k v (flat_map entries (pre ++ c :: post))).
  { unfold ks'. rewrite !flat_map_app. cbn [flat_map]. rewrite EN. rewrite put_pass by exact BP. f_equal. destruct BC as [->|BC]; [cbn [flat_map]; rewrite !app_nil_r; reflexivity|]. symmetry. apply put_stop, BC. }
  assert (ND' : NoDup (flat_map nrefs pre ++ nrefs c ++ flat_map nrefs post)) by (cbn [nrefs] in ND; apply NoDup_cons_iff in ND as [_ ND]; rewrite flat_map_app in ND; exact ND).
  assert (RI : ~ In r (flat_map nrefs pre ++ nrefs c ++ flat_map nrefs post)) by (cbn [nrefs] in ND; apply NoDup_cons_iff in ND as [ND _]; rewrite flat_map_app in ND; exact ND).
  assert (BL : forall q, In q (flat_map nrefs pre ++ nrefs c ++ flat_map nrefs post) -> fst q < dnext s).
  { intros q Q. apply (stored_below s top (NNode r (pre ++ c :: post)) q FR HT). cbn [nrefs]. rewrite flat_map_app. right. exact Q. }
  assert (RL : fst r < dnext s) by (apply below; [exact FR|rewrite E; discriminate]).
  assert (KO : Forall (stored (dheap s1) false) (pre ++ post)).
  { eapply stored_kids; [|apply Forall_app; split; [exact K1|exact K3]]. intros x q I Q. assert (IQ : In q (flat_map nrefs pre) \/ In q (flat_map nrefs post)) by (apply in_app_iff in I as [I|I]; [left|right]; apply in_flat_map; eauto).
    apply FT.
    - intros X. destruct IQ as [IQ|IQ]; [eapply NoDup_app_d; [exact ND'|exact IQ|apply in_app_iff; auto]|]. apply NoDup_app_r in ND'. eapply NoDup_app_d; [exact ND'|exact X|exact IQ].
    - intros ->. apply RI. rewrite !in_app_iff. tauto.
    - apply BL. rewrite !in_app_iff. tauto. }
  assert (KS : Forall (stored (dheap s1) false) ks').
  { apply Forall_app in KO as [A B]. unfold ks'. apply Forall_app. split; [exact A|]. apply Forall_app. split; [exact ST|exact B]. }
  assert (NK' : ks' <> []) by (unfold ks'; destruct pre; [destruct ts; [congruence|discriminate]|discriminate]).
  assert (REF : forall q, In q (flat_map nrefs ks') -> In q (flat_map nrefs pre ++ nrefs c ++ flat_map nrefs post) \/ dnext s <= fst q).
  { intros q. unfold ks'. rewrite !flat_map_app, !in_app_iff. intros [X|[X|X]]; auto. destruct (RT q X); auto. }
  assert (NDK : NoDup (nrefs (NNode r ks'))).
  { cbn [nrefs]. apply NoDup_cons_iff. split; [intros X; apply REF in X as [X|X]; [exact (RI X)|lia]|]. unfold ks'. rewrite !flat_map_app.
    apply NoDup_app_i; [apply NoDup_app_l in ND'; exact ND'| |].
    - apply NoDup_app_i; [exact NDT|apply NoDup_app_r, NoDup_app_r in ND'; exact ND'|]. intros q Q X. destruct (RT q Q) as [Y|Y]; [apply NoDup_app_r in ND'; eapply NoDup_app_d; [exact ND'|exact Y|exact X]|].
      assert (fst q < dnext s) by (apply BL; rewrite !in_app_iff; auto). lia.
    - intros q Q X. apply in_app_iff in X as [X|X].
      + destruct (RT q X) as [Y|Y]; [eapply NoDup_app_d; [exact ND'|exact Q|apply in_app_iff; auto]|]. assert (fst q < dnext s) by (apply BL; rewrite !in_app_iff; auto). lia.
      + eapply NoDup_app_d; [exact ND'|exact Q|apply in_app_iff; auto]. }
  assert (REF' : forall q, In q (nrefs (NNode r ks')) -> In q (nrefs (NNode r (pre ++ c :: post))) \/ dnext s <= fst q).
  { intros q. cbn [nrefs In]. intros [->|X]; [auto|]. rewrite flat_map_app. apply REF in X as [X|X]; auto. }
  assert (LEV : (levels (NNode r ks') <= levels (NNode r (pre ++ c :: post)))%nat).
  { set (m := levels (NNode r (pre ++ c :: post))). assert (LM : forall x, In x (pre ++ c :: post) -> (S (levels x) <= m)%nat) by (intros x X; pose proof (levels_fold (pre ++ c :: post) x X); unfold m; cbn [levels]; lia).
    assert (LB : forall x, In x ks' -> (S (levels x) <= m)%nat).
    { intros x X. unfold ks' in X. rewrite !in_app_iff in X. destruct X as [X|[X|X]].
      - apply LM, in_app_iff. auto.
      - apply LT in X. pose proof (LM c ltac:(apply in_app_iff; right; left; reflexivity)). lia.
      - apply LM, in_app_iff. right. right. exact X. }
    revert LB NK'. clear. intros LB NK'. destruct m as [|m]; [destruct ks' as [|x l]; [congruence|]; specialize (LB x (or_introl eq_refl)); lia|].
    pose proof (levels_bound r ks' m) as X. apply X. intros x I. specialize (LB x I). lia. }
  assert (FRAME : forall q, ~ In q (nrefs (NNode r (pre ++ c :: post))) -> fst q < dnext s -> dheap s1 q = dheap s q).
  { intros q Q L. apply FT; [|intros ->; apply Q; left; reflexivity|exact L]. intros X. apply Q. cbn [nrefs]. rewrite flat_map_app. right. apply in_app_iff. right. apply in_app_iff. left. exact X. }
  assert (BT : built (dheap s1) (NNode r ks')).
  { split; [exists d1; split; [exact E1|]; split; [exact S1|]; split; [exact NK'|exact KI1]|]. split; [exact KS|]. cbn [entries]. rewrite ENT. apply put_ne. }
  destruct b.
  - exists s1, ks'. split; [exact CH|]. split; [exact AD|]. split; [reflexivity|]. split; [exact F1|]. split; [exact D1|]. split; [|split; [exact ENT|]; split; [exact NDK|]; split; [exact REF'|]; split; [exact FRAME|exact LEV]].
    rewrite stored_iff. split; [|exact KS]. exists d1. split; [exact E1|]. split; [exact S1|]. split; [split; [exact NK'|exact KI1]|]. cbn [entries]. destruct top; cbn [negb] in *.
    + cbn [limits] in *. destruct LI1 as [X|[X _]]; [rewrite X; exact Li|discriminate].
    + destruct LI1 as [X|[_ X]]; [|exact X]. destruct (put_inside k v (entries c) SC (IN eq_refl)) as (x & x' & P1 & P2 & P3 & P4). rewrite <- EN in P2, P4.
      assert (Li1 : limits false (flat_map entries (pre ++ c :: post)) d1). { destruct Li as (y & z & b & e & Y & Z & G). exists y, z, b, e. split; [exact Y|]. split; [exact Z|]. rewrite X. exact G. }
      rewrite flat_map_app in Li1. cbn [flat_map] in Li1. unfold ks'. rewrite !flat_map_app. eapply limits_mid; [exact P1|exact P2|exact P3|exact P4|exact Li1].
  - destruct (set_limits_ok (dheap s1) (NNode r ks') (negb top) d1 BT E1) as (l & SL & LI). cbn [nref is_node entries] in SL, LI. unfold set_limits_of. rewrite SL. cbn [bind].
    destruct top; cbn [negb] in *.
    + eexists _, ks'. split; [exact CH|]. split; [exact AD|]. split; [reflexivity|]. destruct s1 as [h1 n1]. cbn [dheap dnext] in *. split; [exact F1|]. split; [exact D1|]. split; [|split; [exact ENT|]; split; [exact NDK|]; split; [exact REF'|]; split; [exact FRAME|exact LEV]].
      rewrite stored_iff. split; [|exact KS]. exists d1. split; [exact E1|]. split; [exact S1|]. split; [split; [exact NK'|exact KI1]|]. cbn [limits] in *. destruct LI1 as [X|[X _]]; [rewrite X; exact Li|discriminate].
    + eexists _, ks'. split; [exact CH|]. split; [exact AD|]. split; [reflexivity|]. cbn [dheap dnext]. split; [|split; [exact D1|]; split; [|split; [exact ENT|]; split; [exact NDK|]; split; [exact REF'|]; split; [|exact LEV]]].
      * intros q Q. cbn [dheap dnext] in *. rewrite set_other by (intros ->; lia). apply F1, Q.
      * rewrite stored_iff. split.
        -- exists (dict_add (bs "Limits") l d1). split; [apply set_same|]. split; [apply dict_add_sorted, S1|]. split; [split; [exact NK'|dg; exact KI1]|]. apply LI. dg. reflexivity.
        -- eapply stored_kids; [|exact KS]. intros x q I Q. apply set_other. intros ->. cbn [nrefs] in NDK. apply NoDup_cons_iff in NDK as [X _]. apply X, in_flat_map. eauto.
      * intros q Q L. rewrite set_other by (intros ->; apply Q; left; reflexivity). apply FRAME; assumption.
Qed.

Lemma leaf_new top k v s r l d : dheap s r = Some (ODict d) -> sorted d -> shape (NLeaf r l) d -> limits top l d ->
  exists h1 h2, store_array (dheap s) r (bs "Names") (pairs (put k v l)) = Ok h1 /\
    (if negb top then set_key h1 r (bs "Limits") (OArr [hd ONull (pairs (put k v l)); nth (length (pairs (put k v l)) - 2) (pairs (put k v l)) ONull]) else Ok h1) = Ok h2 /\
    stored h2 top (NLeaf r (put k v l)) /\ (forall q, q <> r -> h2 q = dheap s q).
Proof.
  intros E Sd [Na Ki] Li. unfold store_array. rewrite (dict_at_val _ r d E). cbn [bind]. unfold get_key. rewrite Na. destruct top; cbn [negb].
  - eexists. eexists. split; [reflexivity|]. split; [reflexivity|]. split; [|intros q Q; apply set_other, Q]. rewrite stored_iff. split; [|constructor].
    exists (dict_add (bs "Names") (OArr (pairs (put k v l))) d). split; [apply set_same|]. split; [apply dict_add_sorted, Sd|]. split; [split; dg; auto|]. cbn [limits] in *. dg. exact Li.
  - set (l' := put k v l) in *. pose proof (put_ne k v l) as NE. fold l' in NE. destruct (hd_error l') as [x|] eqn:X; [|destruct l'; [congruence|discriminate]].
    rewrite (pairs_last l' x NE). assert (HX : hd ONull (pairs l') = sobj (fst x)) by (destruct l' as [|e l']; [discriminate|injection X as ->; reflexivity]). rewrite HX.
    eexists. eexists. split; [reflexivity|]. split; [apply set_key_val, set_same|]. split; [|intros q Q; rewrite !set_other by exact Q; reflexivity]. rewrite stored_iff. split; [|constructor].
    eexists. split; [apply set_same|]. split; [repeat apply dict_add_sorted; exact Sd|]. split; [split; unfold add_key; dg; auto|]. exists x, (last l' x), (fst (fst x)), (fst (fst (last l' x))). split; [exact X|]. split; [reflexivity|].
    unfold add_key. dg. reflexivity.
Qed.
Lemma add_ok k v t : adds k v t.
Proof.
  induction t as [r l|r ks IH] using ntree_ind2; intros n s p dp above pre post LV FR HT SO EP SP KP ND HO.
  - destruct n as [|n]; [cbn in LV; lia|]. cbn [add_value nref]. pose proof HT as HT'. rewrite stored_iff in HT'. destruct HT' as [(d & E & Sd & Sh & Li) _]. cbn [nref entries] in *.
    rewrite (dict_at_val _ r d E). cbn [bind]. rewrite (has_kids_shape _ d Sh). cbn [is_node]. pose proof Sh as [Na Ki]. unfold has_key at 1. rewrite Na. rewrite (direct_array _ _ d _ Na). cbn [bind].
    rewrite put_names_ok. cbn [bind]. destruct (leaf_new false k v s r l d E Sd Sh Li) as (h1 & h2 & A1 & A2 & ST & FRM). rewrite A1. cbn [bind]. cbn [negb] in A2. rewrite A2. cbn [bind].
    rewrite flat_map_app in ND. cbn [flat_map] in ND.
    assert (PR : p <> r). { intros ->. apply NoDup_cons_iff in ND as [X _]. apply X. rewrite !in_app_iff. right. left. left. reflexivity. }
    assert (RL : fst r < dnext s) by (apply below; [exact FR|rewrite E; discriminate]).
    destruct (rebalance_ok (mk_doc h2 (dnext s)) (NLeaf r (put k v l)) p dp above pre post) as (s' & ts & RB & EN & AF).
    + intros q Q. cbn [dheap dnext] in *. rewrite FRM by (intros ->; lia). apply FR, Q.
    + exact ST.
    + cbn [dheap]. rewrite FRM by exact PR. exact EP.
    + exact SP.
    + rewrite map_app in *. exact KP.
    + rewrite flat_map_app. exact ND.
    + eapply stored_kids; [|exact HO]. intros x q I Q. apply FRM. intros ->. apply NoDup_cons_iff in ND as [_ ND]. apply in_app_iff in I as [I|I].
      * eapply NoDup_app_d; [exact ND|apply in_flat_map; eauto|]. apply in_app_iff. left. left. reflexivity.
      * apply NoDup_app_r in ND. eapply NoDup_app_d; [exact ND|left; reflexivity|]. apply in_flat_map. eauto.
    + exists s', ts. split; [exact RB|]. split; [exact EN|]. eapply after_change; [| |intros q Q; left; exact Q|reflexivity|exact AF]; cbn [dheap dnext]; [lia|].
      intros q Q L. apply FRM. intros ->. apply Q. left. reflexivity.
  - destruct n as [|n]; [cbn in LV; lia|]. cbn [add_value nref]. pose proof HT as HT'. rewrite stored_iff in HT'. destruct HT' as [(d & E & Sd & Sh & Li) K]. cbn [nref entries kids_of] in *.
    rewrite (dict_at_val _ r d E). cbn [bind]. rewrite (has_kids_shape _ d Sh). cbn [is_node]. pose proof Sh as [NK Ki]. rewrite (direct_array _ _ d _ Ki). cbn [bind].
    rewrite flat_map_app in ND. cbn [flat_map] in ND. pose proof ND as ND'. apply NoDup_cons_iff in ND' as [PI ND'].
    pose proof (NoDup_app_l _ _ (NoDup_app_r _ _ ND')) as NDT.
    destruct (node_step k v n s r ks false IH LV FR HT NDT SO) as (c & b & s1 & s2 & ks' & CH & AD & SL & F2 & D2 & ST & EN & NDK & REF & FRM & LEV).
    cbn [negb] in *. rewrite CH. cbn [bind fst snd]. rewrite AD. cbn [bind]. rewrite SL. cbn [bind].
    assert (BL : forall x q, In x (pre ++ post) -> In q (nrefs x) -> fst q < dnext s) by (intros x q I Q; rewrite Forall_forall in HO; eapply stored_below; [exact FR|apply HO, I|exact Q]).
    assert (PL : fst p < dnext s) by (apply below; [exact FR|rewrite EP; discriminate]).
    assert (PT : ~ In p (nrefs (NNode r ks))) by (intros X; apply PI; rewrite !in_app_iff; auto).
    assert (OUT : forall x q, In x (pre ++ post) -> In q (nrefs x) -> ~ In q (nrefs (NNode r ks))).
    { intros x q I Q X. apply in_app_iff in I as [I|I].
      - eapply NoDup_app_d; [exact ND'|apply in_flat_map; eauto|apply in_app_iff; left; exact X].
      - apply NoDup_app_r in ND'. eapply NoDup_app_d; [exact ND'|exact X|apply in_flat_map; eauto]. }
    destruct (rebalance_ok s2 (NNode r ks') p dp above pre post) as (s' & ts & RB & EN' & AF).
    + exact F2.
    + exact ST.
    + rewrite FRM; [exact EP|exact PT|exact PL].
    + exact SP.
    + rewrite map_app in *. exact KP.
    + rewrite flat_map_app. cbn [flat_map]. apply NoDup_cons_iff. split.
      * rewrite !in_app_iff. intros [X|[X|X]]; [apply PI; rewrite !in_app_iff; auto| |apply PI; rewrite !in_app_iff; auto]. apply REF in X as [X|X]; [exact (PT X)|lia].
      * apply NoDup_app_i; [apply NoDup_app_l in ND'; exact ND'| |].
        -- apply NoDup_app_i; [exact NDK|apply NoDup_app_r, NoDup_app_r in ND'; exact ND'|]. intros q Q X. apply in_flat_map in X as (x & I & X).
           apply REF in Q as [Q|Q]; [eapply OUT; [apply in_app_iff; right; exact I|exact X|exact Q]|]. assert (fst q < dnext s) by (eapply BL; [apply in_app_iff; right; exact I|exact X]). lia.
        -- intros q Q X. apply in_flat_map in Q as (x & I & Q). apply in_app_iff in X as [X|X].
           ++ apply REF in X as [X|X]; [eapply OUT; [apply in_app_iff; left; exact I|exact Q|exact X]|]. assert (fst q < dnext s) by (eapply BL; [apply in_app_iff; left; exact I|exact Q]). lia.
           ++ eapply NoDup_app_d; [exact ND'|apply in_flat_map; eauto|apply in_app_iff; right; exact X].
    + eapply stored_kids; [|exact HO]. intros x q I Q. apply FRM; [eapply OUT; eauto|eapply BL; eauto].
    + exists s', ts. split; [exact RB|]. split; [rewrite EN'; exact EN|]. eapply after_change; [exact D2|exact FRM|exact REF|exact LEV|exact AF].
Qed.

(** ** Additions to the tree *)
Definition unchanged (s s' : doc) (keep : ref -> Prop) : Prop := forall q, keep q -> fst q < dnext s -> dheap s' q = dheap s q.
Lemma add_tree k v n s root t : name_tree (dheap s) root t -> fresh s -> (levels t <= n)%nat ->
  exists s' t', add_to_tree n s root k v = Ok s' /\ name_tree (dheap s') root t' /\ entries t' = put k v (entries t) /\ fresh s' /\ dnext s <= dnext s' /\
    (forall q, In q (nrefs t') -> In q (nrefs t) \/ dnext s <= fst q) /\
    (forall q, ~ In q (nrefs t) -> fst q < dnext s -> dheap s' q = dheap s q) /\ (levels t' <= S (levels t))%nat.
Proof.
  intros (HT & ND & ER & SO) FR LV. unfold add_to_tree. subst root. destruct n as [|n]; [destruct t; cbn in LV; lia|]. cbn [add_value].
  pose proof HT as HT'. rewrite stored_iff in HT'. destruct HT' as [(d & E & Sd & Sh & Li) K]. rewrite (dict_at_val _ _ d E). cbn [bind]. rewrite (has_kids_shape _ d Sh).
  assert (RL : fst (nref t) < dnext s) by (apply below; [exact FR|rewrite E; discriminate]).
  destruct t as [r l|r ks]; cbn [is_node nref entries kids_of] in *.
  - pose proof Sh as [Na Ki]. unfold has_key at 1. rewrite Na. rewrite (direct_array _ _ d _ Na). cbn [bind]. rewrite put_names_ok. cbn [bind].
    destruct (leaf_new true k v s r l d E Sd Sh Li) as (h1 & h2 & A1 & A2 & ST & FRM). rewrite A1. cbn [bind]. cbn [negb] in A2. apply ok_inj in A2. subst h1. cbn [bind].
    destruct (rebalance_root (mk_doc h2 (dnext s)) (NLeaf r (put k v l))) as (s' & t' & RB & EN & R1 & R2 & R3 & R4 & R5 & R6 & R7 & R8).
    + intros q Q. cbn [dheap dnext] in *. rewrite FRM by (intros ->; lia). apply FR, Q.
    + exact ST.
    + cbn [nrefs]. repeat constructor. auto.
    + exists s', t'. split; [exact RB|]. cbn [dheap dnext entries nref nrefs levels] in *. split; [split; [exact R3|]; split; [exact R4|]; split; [exact R5|]; rewrite EN; apply put_sorted, SO|]. split; [exact EN|]. split; [exact R1|]. split; [exact R2|]. split; [exact R6|].
      split; [|exact R8]. intros q Q L. rewrite R7 by assumption. apply FRM. intros ->. apply Q. left. reflexivity.
  - pose proof Sh as [NK Ki]. rewrite (direct_array _ _ d _ Ki). cbn [bind].
    destruct (node_step k v n s r ks true) as (c & b & s1 & s2 & ks' & CH & AD & SL & F2 & D2 & ST & EN & NDK & REF & FRM & LEV); auto.
    { rewrite Forall_forall. intros x _. apply add_ok. }
    cbn [negb] in *. rewrite CH. cbn [bind fst snd]. rewrite AD. cbn [bind]. rewrite SL. cbn [bind].
    destruct (rebalance_root s2 (NNode r ks') F2 ST NDK) as (s' & t' & RB & EN' & R1 & R2 & R3 & R4 & R5 & R6 & R7 & R8).
    exists s', t'. split; [exact RB|]. split; [split; [exact R3|]; split; [exact R4|]; split; [exact R5|]; rewrite EN'; cbn [entries]; rewrite EN; apply put_sorted, SO|].
    split; [rewrite EN'; exact EN|]. split; [exact R1|]. split; [lia|]. split; [|split; [|lia]].
    + intros q Q. apply R6 in Q as [Q|Q]; [apply REF, Q|right; lia].
    + intros q Q L. rewrite R7; [apply FRM; assumption| |lia]. intros X. apply REF in X as [X|X]; [exact (Q X)|lia].
Qed.
Lemma add_blank k v n s root : blank (dheap s) root -> fresh s -> (1 <= n)%nat ->
  exists s' t', add_to_tree n s root k v = Ok s' /\ name_tree (dheap s') root t' /\ entries t' = [(k, v)] /\ fresh s' /\ dnext s <= dnext s' /\
    (forall q, In q (nrefs t') -> q = root \/ dnext s <= fst q) /\
    (forall q, q <> root -> fst q < dnext s -> dheap s' q = dheap s q) /\ levels t' = 2%nat.
Proof.
  intros (d & E & Sd & Ki & Na & Li) FR LV. unfold add_to_tree. destruct n as [|n]; [lia|]. cbn [add_value]. rewrite (dict_at_val _ _ d E). cbn [bind]. unfold has_key at 1. rewrite Ki. unfold has_key at 1. rewrite Na.
  unfold new_object. cbn [dheap dnext]. set (c := (dnext s, 0)). assert (RL : fst root < dnext s) by (apply below; [exact FR|rewrite E; discriminate]).
  assert (RC : root <> c) by (intros X; rewrite X in RL; cbn in RL; lia).
  rewrite (set_key_val _ root (bs "Kids") _ d) by (rewrite set_other by exact RC; exact E). cbn [bind]. set (dc := add_key _ _ _). assert (SC : sorted dc) by (unfold dc, add_key; repeat apply dict_add_sorted; apply sorted_nil).
  eexists _, (NNode root [NLeaf c [(k, v)]]). split; [reflexivity|]. cbn [dheap dnext]. split; [|split; [reflexivity|]; split; [|split; [lia|]; split; [|split; [|reflexivity]]]].
  - split; [|split; [|split; [reflexivity|repeat constructor]]].
    + rewrite stored_iff. split; [|constructor; [|constructor]].
      * eexists. split; [apply set_same|]. split; [apply dict_add_sorted, Sd|]. split; [split; [discriminate|dg; reflexivity]|]. cbn [limits]. dg. exact Li.
      * rewrite stored_iff. split; [|constructor]. exists dc. split; [rewrite set_other by (cbn; congruence); apply set_same|]. split; [exact SC|]. split; [split; reflexivity|]. exists (k, v), (k, v), (fst k), (fst k). auto.
    + cbn. repeat constructor; cbn; intuition congruence.
  - intros q Q. cbn [dheap dnext] in *. rewrite !set_other by (intros ->; cbn in Q; lia). apply FR. lia.
  - intros q [<-|[<-|[]]]; [auto|right; cbn; lia].
  - intros q Q L. rewrite !set_other by (try exact Q; intros ->; cbn in L; lia). reflexivity.
Qed.

(** ** Lookup *)
Definition ref_value (h : heap) (v : option obj) : option obj := match v with Some (ORef n g) => h (n, g) | x => x end.
Lemma find_name_ok h key l : find_name h key (pairs l) = Ok (ref_value h (lookup key l)).
Proof.
  induction l as [|[k v] l IH]; [reflexivity|]. change (pairs ((k, v) :: l)) with (sobj k :: v :: pairs l). cbn [find_name sobj str_of bind lookup].
  destruct (beq (snd k) key); [destruct v; reflexivity|exact IH].
Qed.
Lemma lookup_app key a b : lookup key (a ++ b) = match lookup key a with Some v => Some v | None => lookup key b end.
Proof. induction a as [|[k v] a IH]; [reflexivity|]. cbn [app lookup]. destruct (beq (snd k) key); [reflexivity|exact IH]. Qed.
Lemma lookup_in key v l : lookup key l = Some v -> exists k, In (k, v) l /\ snd k = key.
Proof. induction l as [|[k w] l IH]; [discriminate|]. cbn [lookup]. destruct (beq (snd k) key) eqn:E; [intros [= ->]; apply beq_eq in E; exists k; split; [left; reflexivity|exact E]|]. intros H. destruct (IH H) as (q & I & Q). exists q. split; [right; exact I|exact Q]. Qed.
Lemma lookup_none key l : (forall e, In e l -> beq (snd (fst e)) key = false) -> lookup key l = None.
Proof. induction l as [|[k w] l IH]; intros H; [reflexivity|]. cbn [lookup]. pose proof (H (k, w) (or_introl eq_refl)) as X. cbn [fst] in X. rewrite X. apply IH. intros e I. apply H. right. exact I. Qed.
Lemma sorted_unique key v a b : StronglySorted before (a ++ b) -> lookup key a = Some v -> lookup key b = None.
Proof.
  intros S1 L. destruct (lookup_in _ _ _ L) as (k & I & K). apply lookup_none. intros e J.
  assert (B : before (k, v) e).
  { clear L. induction a as [|x a IH]; [destruct I|]. cbn [app] in S1. apply StronglySorted_inv in S1 as [S1 F]. destruct I as [->|I]; [|apply IH; assumption]. rewrite Forall_forall in F. apply F, in_app_iff. auto. }
  unfold before in B. cbn [fst] in B. rewrite K in B. destruct (beq (snd (fst e)) key) eqn:X; [|reflexivity]. apply beq_eq in X. exfalso. apply lt_neq in B. change (beq key (snd (fst e)) = false) in B. apply (fun p => eq_true_false_abs _ p B). apply beq_eq. symmetry. exact X.
Qed.
Lemma key_value_ok h key : forall t n top, stored h top t -> StronglySorted before (entries t) -> (levels t <= n)%nat -> key_value n h key (nref t) = Ok (ref_value h (lookup key (entries t))).
Proof.
  induction t as [r l|r ks IH] using ntree_ind2; intros n top HT SO LV; (destruct n as [|n]; [cbn in LV; lia|]); cbn [key_value nref];
    pose proof HT as HT'; rewrite stored_iff in HT'; destruct HT' as [(d & E & Sd & Sh & Li) K]; cbn [nref kids_of] in *.
  - assert (FIN : (do d0 <- dict_at h r; if has_key (bs "Kids") d0 then do kids <- must_array h (bs "Kids") d0; find_in_kids (key_value n h key) h kids else do names <- must_array h (bs "Names") d0; find_name h key names) = Ok (ref_value h (lookup key l))).
    { rewrite (dict_at_val h r d E). cbn [bind]. rewrite (has_kids_shape _ d Sh). cbn [is_node]. destruct Sh as [Na _]. rewrite (direct_array h _ d _ Na). cbn [bind]. apply find_name_ok. }
    destruct top; cbn [limits entries] in *.
    + unfold check_limits. rewrite (dict_at_val h r d E). cbn [bind]. unfold has_key at 1. rewrite Li. rewrite (dict_at_val h r d E) in FIN. exact FIN.
    + destruct (limits_check h r d key l E Li) as (x & X & C). rewrite C. cbn [bind]. destruct (bytes_lt key (snd (fst x))) eqn:L1; [|destruct (bytes_lt (snd (fst (last l x))) key) eqn:L2; [|exact FIN]].
      * rewrite lookup_none; [reflexivity|]. intros e I. destruct l as [|a l]; [discriminate|]. injection X as ->. apply StronglySorted_inv in SO as [_ F]. rewrite Forall_forall in F.
        assert (LT : bytes_lt key (snd (fst e)) = true) by (destruct I as [<-|I]; [exact L1|eapply bytes_lt_trans; [exact L1|apply F, I]]). destruct (beq (snd (fst e)) key) eqn:Q; [|reflexivity]. apply beq_eq in Q. rewrite Q, bytes_lt_irrefl in LT. discriminate.
      * rewrite lookup_none; [reflexivity|]. intros e I. pose proof (all_below key l x SO L2) as F. rewrite Forall_forall in F. apply lt_neq, F, I.
  - assert (KD : forall ks', Forall (stored h false) ks' -> (forall x, In x ks' -> In x ks) -> StronglySorted before (flat_map entries ks') ->
      find_in_kids (key_value n h key) h (ptrs ks') = Ok (ref_value h (lookup key (flat_map entries ks')))).
    { induction ks' as [|c ks' IK]; intros F SUB S1; [reflexivity|]. apply Forall_cons_iff in F as [Fc F]. cbn [map find_in_kids flat_map] in *. unfold ref_of, ptr at 1. cbn [bind]. rewrite <- surjective_pairing.
      destruct (stored_some c h false Fc (nref c) (nref_in c)) as (dc & Ec). rewrite Ec. rewrite Forall_forall in IH.
      rewrite (IH c (SUB c (or_introl eq_refl)) n false Fc (sorted_app_l _ _ S1)). 2:{ cbn [levels] in LV. pose proof (levels_fold ks c (SUB c (or_introl eq_refl))). lia. }
      cbn [bind]. rewrite lookup_app. rewrite (IK F (fun x I => SUB x (or_intror I)) (sorted_app_r _ _ S1)). destruct (lookup key (entries c)) as [v|] eqn:LK; [|reflexivity].
      pose proof (sorted_unique key v _ _ S1 LK) as U. rewrite U. destruct (ref_value h (Some v)) as [w|] eqn:RV; rewrite ?RV; reflexivity. }
    assert (FIN : (do d0 <- dict_at h r; if has_key (bs "Kids") d0 then do kids <- must_array h (bs "Kids") d0; find_in_kids (key_value n h key) h kids else do names <- must_array h (bs "Names") d0; find_name h key names) = Ok (ref_value h (lookup key (flat_map entries ks)))).
    { rewrite (dict_at_val h r d E). cbn [bind]. rewrite (has_kids_shape _ d Sh). cbn [is_node]. destruct Sh as [_ Ki]. rewrite (direct_array h _ d _ Ki). cbn [bind]. apply KD; auto. }
    cbn [entries] in *. destruct top; cbn [limits] in *.
    + unfold check_limits. rewrite (dict_at_val h r d E). cbn [bind]. unfold has_key at 1. rewrite Li. rewrite (dict_at_val h r d E) in FIN. exact FIN.
    + set (l := flat_map entries ks) in *. destruct (limits_check h r d key l E Li) as (x & X & C). rewrite C. cbn [bind]. destruct (bytes_lt key (snd (fst x))) eqn:L1; [|destruct (bytes_lt (snd (fst (last l x))) key) eqn:L2; [|exact FIN]].
      * rewrite lookup_none; [reflexivity|]. intros e I. destruct l as [|a l']; [discriminate|]. injection X as ->. apply StronglySorted_inv in SO as [_ F]. rewrite Forall_forall in F.
        assert (LT : bytes_lt key (snd (fst e)) = true) by (destruct I as [<-|I]; [exact L1|eapply bytes_lt_trans; [exact L1|apply F, I]]). destruct (beq (snd (fst e)) key) eqn:Q; [|reflexivity]. apply beq_eq in Q. rewrite Q, bytes_lt_irrefl in LT. discriminate.
      * rewrite lookup_none; [reflexivity|]. intros e I. pose proof (all_below key l x SO L2) as F. rewrite Forall_forall in F. apply lt_neq, F, I.
Qed.
Lemma get_ok h root t n key : name_tree h root t -> (levels t <= n)%nat -> get_value n h root key = Ok (followed h (lookup key (entries t))).
Proof.
  intros (HT & _ & <- & SO) LV. unfold get_value. rewrite (key_value_ok h key t n true HT SO LV). cbn [bind]. unfold followed, ref_value. destruct (lookup key (entries t)) as [[]|]; try reflexivity.
  destruct (h (n0, g)) as [[]|]; reflexivity.
Qed.

(** ** Sequences of additions *)
Lemma add_step k v n s root on l m : tree_at (dheap s) root on l m -> fresh s -> (m <= n)%nat -> (1 <= n)%nat ->
  exists s' t', add_to_tree n s root k v = Ok s' /\ name_tree (dheap s') root t' /\ entries t' = put k v l /\ fresh s' /\ dnext s <= dnext s' /\
    (forall q, In q (nrefs t') -> In q on \/ dnext s <= fst q) /\
    (forall q, ~ In q on -> fst q < dnext s -> dheap s' q = dheap s q) /\ (levels t' <= S (Nat.max 1 m))%nat.
Proof.
  intros [(B & -> & -> & ->)|(t & T & -> & <- & <-)] FR LV L1.
  - destruct (add_blank k v n s root B FR L1) as (s' & t' & A1 & A2 & A3 & A4 & A5 & A6 & A7 & A8). exists s', t'. rewrite A3. cbn [put]. repeat (split; [assumption || reflexivity|]). split; [|split; [|rewrite A8; lia]].
    + intros q Q. destruct (A6 q Q) as [->|X]; [left; left; reflexivity|auto].
    + intros q Q L. apply A7; [intros ->; apply Q; left; reflexivity|exact L].
  - destruct (add_tree k v n s root t T FR LV) as (s' & t' & A1 & A2 & A3 & A4 & A5 & A6 & A7 & A8). exists s', t'. repeat (split; [assumption|]). lia.
Qed.
Lemma history n root : forall (hist : list entry) s on l m, tree_at (dheap s) root on l m -> fresh s -> (Nat.max 1 m + length hist <= n)%nat ->
  exists s' on' l' m', add_all n s root hist = Ok s' /\ fresh s' /\ dnext s <= dnext s' /\
    tree_at (dheap s') root on' l' m' /\ (m' <= Nat.max 1 m + length hist)%nat /\ (hist <> [] \/ l <> [] -> l' <> []) /\
    (forall q, lookup q l' = match last_value q hist with Some v => Some v | None => lookup q l end) /\
    (forall q, In q on' -> In q on \/ dnext s <= fst q) /\ (forall q, ~ In q on -> fst q < dnext s -> dheap s' q = dheap s q).
Proof.
  induction hist as [|[k v] hist IH]; intros s on l m T FR LV.
  - exists s, on, l, m. split; [reflexivity|]. split; [exact FR|]. split; [lia|]. split; [exact T|]. split; [lia|]. split; [tauto|]. split; [reflexivity|]. split; auto.
  - cbn [length] in LV. destruct (add_step k v n s root on l m T FR ltac:(lia) ltac:(lia)) as (s1 & t1 & A1 & A2 & A3 & A4 & A5 & A6 & A7 & A8). cbn [add_all]. rewrite A1. cbn [bind].
    destruct (IH s1 (nrefs t1) (put k v l) (levels t1)) as (s' & on' & l' & m' & B1 & B2 & B3 & C1 & C2 & C3 & C4 & C5 & C6); [right; exists t1; auto|exact A4|destruct t1; cbn [levels] in *; lia|].
    exists s', on', l', m'. split; [exact B1|]. split; [exact B2|]. split; [lia|]. split; [exact C1|]. split; [destruct t1; cbn [levels length] in *; lia|]. split; [intros _; apply C3; right; apply put_ne|]. split; [|split].
    + intros q. rewrite C4. unfold last_value. cbn [rev]. rewrite lookup_app. destruct (lookup q (rev hist)); [reflexivity|]. rewrite lookup_put. cbn [lookup]. destruct (beq (snd k) q); reflexivity.
    + intros q Q. apply C5 in Q as [Q|Q]; [apply A6, Q|right; lia].
    + intros q Q L. rewrite C6; [apply A7; assumption| |lia]. intros X. apply A6 in X as [X|X]; [exact (Q X)|lia].
Qed.
Lemma tree_enclosed h t top : stored h top t -> StronglySorted before (entries t) -> forall u, node_of u t -> enclosed h u.
Proof.
  assert (X : forall t h, stored h false t -> StronglySorted before (entries t) -> enclosed h t).
  { intros u g HT SO. rewrite stored_iff in HT. destruct HT as [(d & E & _ & _ & (x & y & b & c & X & Y & L)) _]. exists d, b, (snd (fst x)), c, (snd (fst y)). split; [exact E|]. split; [exact L|]. intros e I. split.
    - destruct (entries u) as [|a l]; [discriminate|]. assert (x = a) as -> by (apply (f_equal (fun o => match o with Some e => e | None => x end)) in X; symmetry; exact X). destruct I as [->|I]; [apply bytes_lt_irrefl|].
      apply StronglySorted_inv in SO as [_ F]. rewrite Forall_forall in F. apply lt_asym, F, I.
    - subst y. destruct (sorted_last (entries u) x e SO I) as [->|B]; [apply bytes_lt_irrefl|apply lt_asym, B]. }
  intros HT SO u N. revert top HT SO. induction N as [r ks u I|r ks k u I N IH]; intros top HT SO; rewrite stored_iff in HT; destruct HT as [_ K]; cbn [kids_of] in K; rewrite Forall_forall in K;
    (assert (SK : forall c, In c ks -> StronglySorted before (entries c)) by (intros c J; cbn [entries] in SO; apply in_split in J as (a & b & ->); rewrite flat_map_app in SO; cbn [flat_map] in SO; apply (sorted_app_l _ _ (sorted_app_r _ _ SO)))).
  - apply X; auto.
  - eapply IH; [apply K, I|apply SK, I].
Qed.

(** ** The dictionary of a tree *)
Lemma lookup_rev_sorted key l : StronglySorted before l -> lookup key (rev l) = lookup key l.
Proof.
  induction l as [|[k v] l IH]; intros S1; [reflexivity|]. pose proof S1 as S0. apply StronglySorted_inv in S1 as [S1 F]. cbn [rev]. rewrite lookup_app, IH by exact S1. cbn [lookup].
  destruct (beq (snd k) key) eqn:E; [|destruct (lookup key l); reflexivity].
  assert (U : lookup key l = None) by (apply (sorted_unique key v [(k, v)] l); [exact S0|cbn [lookup]; rewrite E; reflexivity]). rewrite U. reflexivity.
Qed.
Lemma pairs_to_dict_ok l : forall dict, sorted dict -> exists dict', pairs_to_dict (pairs l) dict = Ok dict' /\ sorted dict' /\
  forall key, dict_get key dict' = match lookup key (rev l) with Some v => Some v | None => dict_get key dict end.
Proof.
  induction l as [|[k v] l IH]; intros dict S1; [exists dict; auto|]. change (pairs ((k, v) :: l)) with (sobj k :: v :: pairs l). cbn [pairs_to_dict sobj str_of bind].
  destruct (IH (add_key (snd k) v dict)) as (dict' & A & B & C); [apply dict_add_sorted, S1|]. exists dict'. split; [exact A|]. split; [exact B|]. intros key. rewrite C. cbn [rev]. rewrite lookup_app. destruct (lookup key (rev l)); [reflexivity|].
  unfold add_key. rewrite dict_get_add by exact S1. cbn [lookup]. replace (beq key (snd k)) with (beq (snd k) key); [destruct (beq (snd k) key); reflexivity|].
  destruct (beq (snd k) key) eqn:E1, (beq key (snd k)) eqn:E2; try reflexivity; [apply beq_eq in E1; rewrite E1, beq_refl in E2; discriminate|apply beq_eq in E2; rewrite E2, beq_refl in E1; discriminate].
Qed.
Lemma add_to_dict_ok h : forall t n top dict, stored h top t -> (levels t <= n)%nat -> sorted dict -> exists dict', add_to_dict n h (nref t) dict = Ok dict' /\ sorted dict' /\
  forall key, dict_get key dict' = match lookup key (rev (entries t)) with Some v => Some v | None => dict_get key dict end.
Proof.
  induction t as [r l|r ks IH] using ntree_ind2; intros n top dict HT LV S1; (destruct n as [|n]; [cbn in LV; lia|]); cbn [add_to_dict nref];
    pose proof HT as HT'; rewrite stored_iff in HT'; destruct HT' as [(d & E & Sd & Sh & Li) K]; cbn [nref kids_of] in *; rewrite (dict_at_val h r d E); cbn [bind]; rewrite (has_kids_shape _ d Sh); cbn [is_node].
  - destruct Sh as [Na _]. unfold has_key. rewrite Na. rewrite (direct_array h _ d _ Na). cbn [bind]. apply pairs_to_dict_ok, S1.
  - destruct Sh as [_ Ki]. rewrite (direct_array h _ d _ Ki). cbn [bind entries].
    assert (LK : forall x, In x ks -> (levels x <= n)%nat) by (intros x X; pose proof (levels_fold ks x X); cbn [levels] in LV; lia). clear Ki Li LV E HT.
    revert dict S1. induction ks as [|c ks IK]; intros dict S1; [exists dict; auto|]. apply Forall_cons_iff in IH as [IHc IH]. apply Forall_cons_iff in K as [Kc K]. cbn [map kids_to_dict flat_map]. unfold ref_of, ptr at 1. cbn [bind]. rewrite <- surjective_pairing.
    destruct (stored_some c h false Kc (nref c) (nref_in c)) as (dc & Ec). rewrite Ec. destruct (IHc n false dict Kc (LK c (or_introl eq_refl)) S1) as (d1 & A1 & B1 & C1). rewrite A1. cbn [bind].
    destruct (IK IH K (fun x X => LK x (or_intror X)) d1 B1) as (d2 & A2 & B2 & C2). exists d2. split; [exact A2|]. split; [exact B2|]. intros key. rewrite C2, C1. rewrite rev_app_distr, lookup_app. destruct (lookup key (rev (flat_map entries ks))); reflexivity.
Qed.
Lemma to_dictionary_ok guard h root t : name_tree h root t -> (levels t <= guard)%nat -> exists d, to_dictionary guard h root = Ok d /\ forall key, dict_get key d = lookup key (entries t).
Proof.
  intros (HT & _ & <- & SO) LV. destruct (add_to_dict_ok h t guard true [] HT LV sorted_nil) as (d & A & _ & C). exists d. split; [exact A|]. intros key. rewrite C, lookup_rev_sorted by exact SO. destruct (lookup key (entries t)); reflexivity.
Qed.

(** ** The theorems *)
Lemma name_map root (hist : list entry) s on l m n : tree_at (dheap s) root on l m -> fresh s ->
  (Nat.max 1 m + length hist <= n)%nat -> hist <> [] \/ l <> [] ->
  exists s' t, add_all n s root hist = Ok s' /\ name_tree (dheap s') root t /\ (levels t <= Nat.max 1 m + length hist)%nat /\
    (forall q, get_value n (dheap s') root q = Ok (followed (dheap s') (match last_value q hist with Some v => Some v | None => lookup q l end))) /\
    (forall u, node_of u t -> enclosed (dheap s') u) /\
    (forall guard, (levels t <= guard)%nat -> exists d, to_dictionary guard (dheap s') root = Ok d /\
      forall q, dict_get q d = match last_value q hist with Some v => Some v | None => lookup q l end) /\
    (forall q, In q (nrefs t) -> In q on \/ dnext s <= fst q) /\ (forall q, ~ In q on -> fst q < dnext s -> dheap s' q = dheap s q).
Proof.
  intros T FR LV NE. destruct (history n root hist s on l m T FR LV) as (s' & on' & l' & m' & A1 & A2 & A3 & A4 & A5 & A6 & A7 & A8 & A9).
  destruct A4 as [(_ & _ & X & _)|(t & NT & -> & <- & <-)]; [exfalso; exact (A6 NE X)|]. exists s', t. split; [exact A1|]. split; [exact NT|]. split; [exact A5|]. split; [|split; [|split; [|split; [exact A8|exact A9]]]].
  - intros q. rewrite (get_ok (dheap s') root t n q NT) by lia. rewrite A7. reflexivity.
  - destruct NT as (HT & _ & _ & SO). eapply tree_enclosed; [exact HT|exact SO].
  - intros guard LG. destruct (to_dictionary_ok guard (dheap s') root t NT LG) as (d & B1 & B2). exists d. split; [exact B1|]. intros q. rewrite B2. apply A7.
Qed.
Lemma followed_value h v : (forall n g, v <> Some (ORef n g)) -> followed h v = v.
Proof. intros H. destruct v as [[]|]; try reflexivity. exfalso. eapply H. reflexivity. Qed.
Lemma empty_refuted : exists h root, blank h root /\ forall n q, get_value (S n) h root q = Err ENoObject.
Proof.
  exists (fun r => if ref_eqb r (1, 0) then Some (ODict []) else None), (1, 0). split; [exists []; split; [reflexivity|split; [apply sorted_nil|auto]]|]. intros n q. reflexivity.
Qed.
Lemma pairs_to_dict_total l : forall dict, (exists d, pairs_to_dict l dict = Ok d) \/ exists e, pairs_to_dict l dict = Err e.
Proof.
  assert (X : forall m l dict, (length l <= m)%nat -> (exists d, pairs_to_dict l dict = Ok d) \/ exists e, pairs_to_dict l dict = Err e).
  { induction m as [|m IH]; intros [|o t] dict L; cbn [length] in L; [left; eexists; reflexivity|lia|left; eexists; reflexivity|]. cbn [pairs_to_dict]. destruct o; cbn [str_of bind]; eauto. destruct t as [|v t]; [eauto|]. apply IH. cbn [length] in L. lia. }
  intros dict. eapply X, le_n.
Qed.
Lemma must_array_total h k d : (exists l, must_array h k d = Ok l) \/ exists e, must_array h k d = Err e.
Proof. unfold must_array. destruct (dict_find h k d) as [[]|]; eauto. Qed.
Lemma add_to_dict_total h : forall guard r dict, (exists o, h r = Some o) -> (exists d, add_to_dict guard h r dict = Ok d) \/ exists e, add_to_dict guard h r dict = Err e.
Proof.
  induction guard as [|guard IH]; intros r dict [o E]; cbn [add_to_dict]; [eauto|]. unfold dict_at. rewrite E. destruct o; cbn [bind]; eauto. destruct (has_key (bs "Kids") d).
  - destruct (must_array_total h (bs "Kids") d) as [[l ->]|[e ->]]; cbn [bind]; eauto. revert dict. induction l as [|x l IL]; intros dict; cbn [kids_to_dict]; [eauto|].
    destruct x; cbn [ref_of bind]; eauto. destruct (h (n, g)) eqn:G; [|apply IL]. destruct (IH (n, g) dict (ex_intro _ _ G)) as [[d1 ->]|[e ->]]; cbn [bind]; eauto.
  - destruct (has_key (bs "Names") d); [|eauto]. destruct (must_array_total h (bs "Names") d) as [[l ->]|[e ->]]; cbn [bind]; eauto. apply pairs_to_dict_total.
Qed.
Lemma dictionary_total guard h root : (exists o, h root = Some o) -> (exists d, to_dictionary guard h root = Ok d) \/ exists e, to_dictionary guard h root = Err e.
Proof. apply add_to_dict_total. Qed.
Definition loop_heap : heap := fun r => if ref_eqb r (1, 0) then Some (ODict [(bs "Kids", OArr [ORef 1 0])]) else None.
Lemma loop_refuted : exists h root, (forall n q, get_value n h root q = Fuel) /\ (forall n s k v, dheap s = h -> add_to_tree n s root k v = Fuel) /\
  (exists e, to_dictionary 256 h root = Err e).
Proof.
  exists loop_heap, (1, 0). split; [|split].
  - assert (X : forall n q, key_value n loop_heap q (1, 0) = Fuel).
    { induction n as [|n IH]; intros q; [reflexivity|]. cbn [key_value]. change (check_limits loop_heap (1, 0) q) with (Ok PInside). cbn [bind]. change (dict_at loop_heap (1, 0)) with (Ok [(bs "Kids", OArr [ORef 1 0])]). cbn [bind].
      change (find_in_kids (key_value n loop_heap q) loop_heap [ORef 1 0] = Fuel). cbn [find_in_kids ref_of bind]. change (loop_heap (1, 0)) with (Some (ODict [(bs "Kids", OArr [ORef 1 0])])). rewrite IH. reflexivity. }
    intros n q. unfold get_value. rewrite X. reflexivity.
  - assert (X : forall n s k v p, dheap s = loop_heap -> add_value n s (1, 0) p k v = Fuel).
    { induction n as [|n IH]; intros s k v p E; [reflexivity|]. cbn [add_value]. rewrite E. change (dict_at loop_heap (1, 0)) with (Ok [(bs "Kids", OArr [ORef 1 0])]). cbn [bind].
      change (must_array loop_heap (bs "Kids") [(bs "Kids", OArr [ORef 1 0])]) with (Ok [ORef 1 0]). change (has_key (bs "Kids") [(bs "Kids", OArr [ORef 1 0])]) with true. cbn [bind].
      change (choose loop_heap (snd k) [ORef 1 0] None) with (Ok ((1, 0), true)). cbn [bind fst]. rewrite IH by exact E. reflexivity. }
    intros n s k v E. apply X, E.
  - exists EInvalidXRef. vm_compute. reflexivity.
Qed.
Lemma odd_refuted : exists h root, (forall n, get_value (S n) h root (bs "a") = UB) /\ (forall n v, add_to_tree (S n) (mk_doc h 9) root (false, bs "a") v = UB) /\
  exists d, to_dictionary 256 h root = Ok d.
Proof.
  exists (fun r => if ref_eqb r (1, 0) then Some (ODict [(bs "Names", OArr [OStr false (bs "a")])]) else None), (1, 0). split; [intros n; reflexivity|]. split; [intros n v; reflexivity|]. eexists. vm_compute. reflexivity.
Qed.
