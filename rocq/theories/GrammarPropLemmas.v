(** Lemmas behind C110. *)
From Coq Require Import String Permutation.
From Verif Require Import Base TokModel WriteModel DictProofs ReadEq TokProofs LexProofs ObjSpec ObjProofs FuelProofs ParseProofs ObjPropLemmas LitSpec LitProofs ConformSpec ConformProofs GrammarSpec GrammarProofs.
Local Open Scope Z_scope.

Lemma comment_cut r : (exists b e q, r = b ++ e :: q /\ ~ In 10 b /\ ~ In 13 b /\ (e = 10 \/ e = 13)) \/ (~ In 10 r /\ ~ In 13 r).
Proof.
  induction r as [|c r IH]; [right; cbn; tauto|]. destruct ((c =? 10) || (c =? 13)) eqn:E.
  - left. exists [], c, r. cbn [In app]. split; [reflexivity|]. split; [tauto|]. split; [tauto|lia].
  - destruct IH as [(b & e & q & -> & N1 & N2 & He)|[N1 N2]].
    + left. exists (c :: b), e, q. cbn [In app]. split; [reflexivity|]. split; [intros [?|?]; [lia|tauto]|]. split; [intros [?|?]; [lia|tauto]|exact He].
    + right. cbn [In]. split; (intros [?|?]; [lia|tauto]).
Qed.
Lemma strip_true_none b : ~ In 10 b -> ~ In 13 b -> strip_from true b = [].
Proof.
  induction b as [|c b IH]; intros N1 N2; [reflexivity|]. cbn [In] in *. cbn [strip_from].
  replace ((c =? 10) || (c =? 13)) with false by lia. apply IH; tauto.
Qed.
Lemma skips_strip k : skips k (strip k).
Proof.
  remember (length k) as n eqn:En. assert (L : (length k <= n)%nat) by lia. clear En. revert k L.
  induction n as [|n IH]; intros k L; [destruct k; [constructor|cbn in L; lia]|].
  destruct k as [|c k]; [constructor|]. cbn [length] in L. unfold strip. cbn [strip_from]. destruct (is_ws c) eqn:W.
  - change (c :: k) with ([c] ++ k). apply skips_blank; [apply blank_white; [apply white_iff; exact W|constructor]|]. apply IH. lia.
  - destruct (c =? 37) eqn:E; [|constructor]. apply Z.eqb_eq in E. subst c.
    destruct (comment_cut k) as [(b & e & q & -> & N1 & N2 & He)|[N1 N2]].
    + rewrite strip_comment by assumption. replace (37 :: b ++ e :: q) with ((37 :: b ++ [e]) ++ q) by (cbn [app]; rewrite <- app_assoc; reflexivity).
      apply skips_blank; [apply blank_comment; auto; constructor|]. apply IH. rewrite app_length in L. cbn [length] in L. lia.
    + rewrite strip_true_none by assumption. apply skips_last; assumption.
Qed.
Lemma skips_same k r : skips k r -> strip r = strip k.
Proof.
  induction 1 as [k|w k r B _ IH|b N1 N2]; [reflexivity| |].
  - rewrite strip_blank by exact B. exact IH.
  - symmetry. apply strip_true_none; assumption.
Qed.
Lemma left_stands P s k : left P s k <-> stands P s k.
Proof.
  split.
  - intros (k0 & r & R & S1 & S2). exists k0. split; [exact R|]. apply skips_same in S1, S2. congruence.
  - intros (k0 & R & E). exists k0, (strip k0). split; [exact R|]. split; [apply skips_strip|]. rewrite E. apply skips_strip.
Qed.

Lemma buf_default : rbuf default_params = Z.to_nat 4095. Proof. reflexivity. Qed.

Lemma spellings_read w t o k : blank w -> spelled default_params t o -> can_follow default_params t o k -> (S (inner o) <= 256)%nat ->
  exists s, parse default_params (w ++ t ++ k) = Ok (Some o, s) /\ left default_params s k.
Proof.
  intros B Sp F D. destruct (spelled_parse default_params buf20 w t o k B Sp F D) as (s & E & St). exists s. split; [exact E|].
  apply left_stands. exact St.
Qed.

Lemma follow_word t o b x k : blank b -> b <> [] -> (t = [47] -> forall y, b <> 37 :: y) -> (match x with c :: _ => ~ In c [37; 45; 48; 49; 50; 51; 52; 53; 54; 55; 56; 57] /\ plain c | [] => False end) ->
  Forall plain x -> (length x <= 4095)%nat -> (k = [] \/ exists c k', k = c :: k' /\ white c) ->
  can_follow default_params t o (b ++ x ++ k) /\
  exists r, tok 4095 (b ++ x ++ k) = Some ((TLit, x), r) /\ skips k r.
Proof.
  intros B NB NC HX PX LX HK.
  assert (Hk : halts k). { destruct HK as [->|(c & k' & -> & W)]; [exact Logic.I|]. cbn. apply white_iff in W. rewrite W. reflexivity. }
  assert (RX : Forall (fun c => is_regular c = true) x) by (eapply Forall_impl; [|exact PX]; intros; apply plain_iff; assumption).
  assert (NX : x <> []) by (destruct x; [destruct HX|discriminate]).
  assert (T : exists r, tok 4095 (b ++ x ++ k) = Some ((TLit, x), r) /\ skips k r).
  { destruct HK as [->|(c & k' & -> & W)].
    - rewrite app_nil_r. exists []. split; [|constructor]. rewrite (tok_same _ _ x) by (apply strip_blank; exact B).
      rewrite <- (app_nil_r x) at 1. apply tok_lit; auto.
    - exists (c :: k'). split; [|constructor]. rewrite (tok_same _ _ (x ++ c :: k')) by (apply strip_blank; exact B).
      apply tok_lit; auto. left. apply white_iff. exact W. }
  split; [|exact T]. destruct T as (r & T & _). split; [|split].
  - assert (Hb : halts (b ++ x ++ k)) by (apply blank_halts; assumption).
    destruct b as [|d b]; [congruence|]. cbn [app] in *. cbn. split.
    + intros _ Pd. apply plain_iff in Pd. unfold is_regular in Pd. cbn in Hb. destruct (is_ws d), (is_delim d); discriminate.
    + intros E ->. apply (NC E b). reflexivity.
  - intros _. split; intro E; apply (f_equal (@rev Z)) in E; rewrite !rev_app_distr in E; cbn [rev app] in E.
    + destruct b as [|b0 b]; [congruence|]. apply (f_equal (@length Z)) in E. rewrite !app_length, !rev_length in E. cbn [length] in E. destruct x; [congruence|cbn [length] in E; lia].
    + destruct b as [|b0 b]; [congruence|]. apply (f_equal (@length Z)) in E. rewrite !app_length, !rev_length in E. cbn [length] in E. destruct x; [congruence|cbn [length] in E; lia].
  - destruct o; auto. intros _. unfold num_safe. rewrite buf_default. change (Z.to_nat 4095) with 4095%nat. rewrite T.
    replace (from_chars_int x) with (@None Z); [exact Logic.I|]. destruct x as [|c x]; [destruct HX|]. destruct HX as [NI _].
    unfold from_chars_int. replace (c =? 45) with false by (symmetry; apply Z.eqb_neq; intros ->; apply NI; cbn; tauto).
    cbn [span_digits]. replace (is_digit c) with false; [reflexivity|]. symmetry. unfold is_digit. apply not_true_is_false. intro G. apply NI. cbn. lia.
Qed.

(** An object with a keyword after it *)
Lemma before_word w t o b x k : blank w -> spelled default_params t o -> (S (inner o) <= 256)%nat ->
  blank b -> b <> [] -> (t = [47] -> forall y, b <> 37 :: y) -> In x [bs "endobj"; bs "stream"; bs "startxref"; bs "trailer"; bs "obj"] ->
  (k = [] \/ exists c k', k = c :: k' /\ white c) ->
  exists s s', parse default_params (w ++ t ++ b ++ x ++ k) = Ok (Some o, s) /\ next_token 4095 s = Some ((TLit, x), s') /\ left default_params s' k.
Proof.
  intros Bw Sp D Bb NB NC Hx Hk.
  assert (HX : (match x with c :: _ => ~ In c [37; 45; 48; 49; 50; 51; 52; 53; 54; 55; 56; 57] /\ plain c | [] => False end) /\ Forall plain x /\ (length x <= 4095)%nat).
  { assert (PL : forall y, forallb is_regular y = true -> Forall plain y).
    { intros y H. apply Forall_forall. intros c Hc. apply plain_iff. rewrite forallb_forall in H. auto. }
    assert (LE : forall n, (n <= 9)%nat -> (n <= 4095)%nat) by (intros; lia).
    destruct Hx as [<-|[<-|[<-|[<-|[<-|[]]]]]]; (split; [split; [cbn; intuition discriminate|apply plain_iff; reflexivity]|split; [apply PL; reflexivity|apply LE; apply Nat.leb_le; reflexivity]]). }
  destruct HX as (HX & PX & LX).
  destruct (follow_word t o b x k Bb NB NC HX PX LX Hk) as (F & r & T & S).
  destruct (spelled_parse default_params buf20 w t o (b ++ x ++ k) Bw Sp F D) as (s & E & St).
  assert (T' : tok (rbuf default_params) (b ++ x ++ k) = Some ((TLit, x), r)) by exact T.
  destruct (next_stands default_params buf20 s _ _ _ _ St T') as (s' & N & R & _ & _).
  exists s, s'. split; [exact E|]. split; [exact N|]. apply left_stands. exists r. split; [exact R|]. apply skips_same in S. exact S.
Qed.

(** A text stands for one object only. *)
Lemma one_object t o o' : spelled default_params t o -> spelled default_params t o' -> (S (inner o) <= 256)%nat -> (S (inner o') <= 256)%nat -> o = o'.
Proof.
  intros A B DA DB.
  assert (G : forall o, spelled default_params t o -> (S (inner o) <= 256)%nat -> exists s, parse default_params (t ++ [32; 93]) = Ok (Some o, s)).
  { intros x Sp D. destruct (spelled_parse default_params buf20 [] t x [32; 93] blank_nil Sp) as (s & E & _); [|exact D|exists s; exact E].
    split; [|split].
    - cbn. split; [intros _ [H _]; apply H; unfold white; cbn; tauto|intros _; discriminate].
    - intros _. split; discriminate.
    - destruct x; auto. intros _. reflexivity. }
  destruct (G o A DA) as [s E]. destruct (G o' B DB) as [s' E']. congruence.
Qed.

(** * What is read wrongly *)
Lemma plus_refused : parse default_params (bs "+5 ") = Err ENoNumber /\ parse default_params (bs "+1.5 ") = Err ENoNumber.
Proof. split; vm_compute; reflexivity. Qed.
Lemma name_comment : exists s, parse default_params (bs "/% a comment
5 ") = Ok (Some (OName (bs "5")), s).
Proof. eexists. vm_compute. reflexivity. Qed.
Lemma long_token : forall n, (4095 < n)%nat -> exists s, parse default_params (47 :: repeat 65 n ++ [32]) = Ok (Some (OName (repeat 65 4095)), s) /\ tq s = [] /\ tin s = repeat 65 (n - 4095) ++ [32].
Proof.
  intros n L. set (t := repeat 65 n ++ [32]).
  assert (LR : forall r m q, (r <= m)%nat -> lit_rest r (repeat 65 m ++ q) = (repeat 65 r, repeat 65 (m - r) ++ q)).
  { induction r as [|r IH]; intros m q H; [cbn [lit_rest repeat]; rewrite Nat.sub_0_r; reflexivity|].
    destruct m as [|m]; [lia|]. cbn [repeat app lit_rest]. change (65 =? 37) with false. change (is_ws 65 || is_delim 65) with false. cbv iota.
    rewrite IH by lia. reflexivity. }
  assert (U : forall m, unescape_name (repeat 65 m) = repeat 65 m).
  { induction m as [|m IH]; [reflexivity|]. cbn [repeat unescape_name]. change (65 =? 35) with false. cbv iota. rewrite IH. reflexivity. }
  assert (TK : tok (rbuf default_params) t = Some ((TLit, repeat 65 4095), repeat 65 (n - 4095) ++ [32])).
  { unfold t, tok. change (rbuf default_params) with (S 4094). destruct n as [|n]; [lia|]. cbn [repeat app tok_from].
    change (is_ws 65) with false. change (65 =? 37) with false. change ((65 =? 60) || (65 =? 62)) with false. change (token_delim 65) with (@None ttype).
    cbv iota. cbn [Nat.pred]. rewrite LR by lia. reflexivity. }
  exists (mk_tst [] (repeat 65 (n - 4095) ++ [32])). split; [|split; reflexivity].
  rewrite <- (parse_any_fuel default_params (47 :: t) (S (S (3 * length (47 :: t) + 3)))) by lia.
  unfold read_next, next_token. cbn [tq tin].
  assert (T1 : tok (rbuf default_params) (47 :: t) = Some ((TSlash, [47]), t)) by (apply tok_delim1; reflexivity).
  rewrite T1, read_variant_S. rewrite (proj2 (Nat.ltb_ge (rmax default_params) 1)) by exact max1. cbn [determine bind].
  rewrite read_data_S. unfold read_name. cbn [tin].
  assert (HD : exists r, t = 65 :: r) by (unfold t; destruct n as [|n]; [lia|eexists; reflexivity]). destruct HD as [r HD].
  rewrite HD. change (is_ws 65) with false. cbv iota. rewrite <- HD. unfold next_token. cbn [tq tin]. rewrite TK, U. reflexivity.
Qed.
