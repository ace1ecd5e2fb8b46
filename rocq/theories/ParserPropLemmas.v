(** Lemmas behind the properties of the parser *)
From Coq Require Import String.
From Verif Require Import Base TokModel WriteModel DictProofs TokProofs LexProofs ObjSpec ObjProofs ParseProofs UtilModel ListModel XrefModel XrefSpec XrefProofs XrefReadProofs XrefPropLemmas XrefStreamProofs ParserModel ParserSpec ParserProofs.
Local Open Scope Z_scope.
Local Notation dict := (list (list Z * obj)) (only parsing).

(** ** Header *)
Lemma scan_sound l : forall c r, (c < 5)%nat -> scan_magic c l = Some r -> exists pre, firstn c magic_word ++ l = pre ++ magic_word ++ r.
Proof.
  induction l as [|x l IH]; intros c r C H; [discriminate|]. cbn [scan_magic] in H. unfold read_magic in H.
  destruct (Z.eqb_spec x (nth c magic_word (-1))) as [E | E].
  - assert (F : firstn c magic_word ++ x :: l = firstn (S c) magic_word ++ l).
    { subst x. do 5 (destruct c as [|c]; [reflexivity|]). lia. }
    rewrite F. destruct (Nat.eqb_spec c 4) as [-> | N].
    + injection H as ->. exists []. reflexivity.
    + apply (IH (S c) r); [lia|exact H].
  - destruct (IH O r ltac:(lia) H) as [pre P]. cbn [firstn app] in P. exists (firstn c magic_word ++ x :: pre).
    rewrite P, <- app_assoc. reflexivity.
Qed.
(** the state of the search after some data without a complete word *)
Fixpoint cursor_after (c : nat) (l : list Z) : option nat :=
  match l with [] => Some c | x :: r => match read_magic x c with None => None | Some i => cursor_after i r end end.
Lemma scan_app l k : forall c, scan_magic c (l ++ k) = match cursor_after c l with Some i => scan_magic i k | None => match scan_magic c l with Some r => Some (r ++ k) | None => None end end.
Proof.
  induction l as [|x l IH]; intros c; [reflexivity|]. cbn [app scan_magic cursor_after]. destruct (read_magic x c) as [i|]; [apply IH|reflexivity].
Qed.
Lemma cursor_none l : forall c, cursor_after c l = None -> exists r, scan_magic c l = Some r.
Proof.
  induction l as [|x l IH]; intros c H; [discriminate|]. cbn [cursor_after scan_magic] in *. destruct (read_magic x c); [apply IH; exact H|eauto].
Qed.
Lemma cursor_small l : forall c i, (c < 5)%nat -> cursor_after c l = Some i -> (i < 5)%nat.
Proof.
  induction l as [|x l IH]; intros c i C H; [injection H as <-; exact C|]. cbn [cursor_after] in H. unfold read_magic in H.
  destruct (x =? _); [destruct (Nat.eqb_spec c 4); [discriminate|]|]; eapply IH; try exact H; lia.
Qed.
Lemma cursor_app l k : forall c i, cursor_after c l = Some i -> cursor_after c (l ++ k) = cursor_after i k.
Proof.
  induction l as [|x l IH]; intros c i H; [injection H as ->; reflexivity|]. cbn [app cursor_after] in *.
  destruct (read_magic x c); [apply IH; exact H|discriminate].
Qed.
Lemma word_nth c : (c < 5)%nat -> In (nth c magic_word (-1)) magic_word.
Proof. intros C. apply nth_In. exact C. Qed.
Lemma cursor_zero pre : (forall i, ~ occurs magic_word pre i) -> ~ In 37 pre \/ pre = [] \/ ~ In (last pre 0) magic_word ->
  cursor_after 0 pre = Some O.
Proof.
  intros NO H. assert (T : exists i, cursor_after 0 pre = Some i).
  { destruct (cursor_after 0 pre) eqn:C; [eauto|]. exfalso. destruct (cursor_none pre 0 C) as [r R].
    destruct (scan_sound pre 0 r ltac:(lia) R) as [q Q]. cbn [firstn app] in Q. apply (NO (length q)). exists r. rewrite Q, skipn_app, skipn_all, Nat.sub_diag. reflexivity. }
  destruct H as [H | [-> | H]]; [|reflexivity|].
  - clear NO T. induction pre as [|x pre IH]; [reflexivity|]. cbn [cursor_after]. unfold read_magic. change (nth 0 magic_word (-1)) with 37.
    replace (x =? 37) with false; [apply IH|]; cbn [In] in H; lia || tauto.
  - destruct T as [i T]. destruct pre as [|x0 pre0] using rev_ind; [reflexivity|]. clear IHpre0. rewrite last_last in H.
    destruct (cursor_after 0 pre0) as [j|] eqn:J.
    + rewrite (cursor_app pre0 [x0] 0 j J) in T |- *. cbn [cursor_after] in *. unfold read_magic in *.
      pose proof (word_nth j (cursor_small pre0 0 j ltac:(lia) J)) as W.
      destruct (Z.eqb_spec x0 (nth j magic_word (-1))) as [E | E]; [rewrite E in H; contradiction|easy].
    + destruct (cursor_none pre0 0 J) as [r R]. exfalso. destruct (scan_sound pre0 0 r ltac:(lia) R) as [q Q]. cbn [firstn app] in Q.
      apply (NO (length q)). exists (r ++ [x0]). rewrite Q, <- !app_assoc, skipn_app, skipn_all, Nat.sub_diag. reflexivity.
Qed.
Lemma scan_word k : scan_magic 0 (magic_word ++ k) = Some k.
Proof. reflexivity. Qed.
Lemma version_known v : In v pdf_versions -> exists x, get_version v = x /\ x <> VUnknown /\ length v = 3%nat.
Proof. intros I. cbn in I. repeat (destruct I as [<- | I]; [eexists; split; [reflexivity|split; [discriminate|reflexivity]]|]). destruct I. Qed.
Lemma version_listed v : get_version v <> VUnknown -> In v pdf_versions.
Proof.
  unfold get_version. intros H. destruct (lookup versions v) as [x|] eqn:L; [|contradiction]. clear H. revert L. unfold versions, pdf_versions. cbn [lookup map].
  repeat match goal with |- context [beq v ?b] => let H := fresh in destruct (beq v b) eqn:H; [intros _; apply beq_eq in H; rewrite H; repeat ((left; reflexivity) || right)|clear H] end. discriminate.
Qed.
Lemma header_sound file m v : is_pdf_file file = Some (m, v) ->
  exists pre w r, file = pre ++ bs "%PDF-" ++ w ++ r /\ In w pdf_versions /\ get_version w = v /\ m = Z.of_nat (length pre).
Proof.
  unfold is_pdf_file. destruct (scan_magic 0 file) as [r|] eqn:SC; [|discriminate]. destruct (scan_sound file 0 r ltac:(lia) SC) as [pre P].
  cbn [firstn app] in P. destruct (Nat.ltb_spec (length r) 3) as [L | L]; [discriminate|].
  assert (V : get_version (firstn 3 r) <> VUnknown -> exists w t, file = pre ++ bs "%PDF-" ++ w ++ t /\ In w pdf_versions /\ w = firstn 3 r).
  { intros K. exists (firstn 3 r), (skipn 3 r). rewrite firstn_skipn. split; [exact P|split; [apply version_listed; exact K|reflexivity]]. }
  assert (LN : Z.of_nat (length file) - Z.of_nat (length r) + 3 - 8 = Z.of_nat (length pre)).
  { rewrite P, !app_length. change (length magic_word) with 5%nat. lia. }
  rewrite LN. intros H. destruct (get_version (firstn 3 r)) eqn:G; try discriminate; injection H as <- <-;
    (destruct V as (w & t & V1 & V2 & V3); [discriminate|]; exists pre, w, t; rewrite V3; split; [rewrite <- V3; exact V1|split; [rewrite <- V3; exact V2|easy]]).
Qed.
Lemma header_found pre v r : (forall i, ~ occurs (bs "%PDF-") pre i) -> ~ In 37 pre \/ pre = [] \/ ~ In (last pre 0) (bs "%PDF-") ->
  In v pdf_versions -> is_pdf_file (pre ++ bs "%PDF-" ++ v ++ r) = Some (Z.of_nat (length pre), get_version v).
Proof.
  intros NO L V. destruct (version_known v V) as (x & G & NU & L3). unfold is_pdf_file. rewrite scan_app, (cursor_zero pre NO L).
  change (bs "%PDF-" ++ v ++ r) with (magic_word ++ v ++ r) at 1. rewrite scan_word.
  replace (Nat.ltb (length (v ++ r)) 3) with false by (symmetry; apply Nat.ltb_ge; rewrite app_length; lia).
  rewrite firstn_app, L3, Nat.sub_diag, firstn_O, app_nil_r, firstn_all2 by lia. rewrite G.
  replace (Z.of_nat _ - _ + 3 - 8) with (Z.of_nat (length pre)).
  2:{ rewrite !app_length. change (length (bs "%PDF-")) with 5%nat. lia. }
  destruct x; easy.
Qed.

(** ** End of file *)
Lemma starts_with_spec w : forall l, starts_with w l = true <-> exists k, l = w ++ k.
Proof.
  induction w as [|a w IH]; intros l; [split; [intros _; exists l; easy|easy]|]. destruct l as [|b l]; cbn [starts_with].
  - split; [discriminate|intros [k K]; discriminate].
  - rewrite andb_true_iff, IH, Z.eqb_eq. split; [intros (-> & k & ->); exists k; easy|intros [k K]; injection K as -> ->; eauto].
Qed.
Lemma search_back_found w l i : forall n, (i < n)%nat -> starts_with w (skipn i l) = true ->
  (forall j, (i < j)%nat -> (j < n)%nat -> starts_with w (skipn j l) = false) -> search_back w l n = Some i.
Proof.
  induction n as [|n IH]; intros L H N; [lia|]. cbn [search_back]. destruct (Nat.eq_dec i n) as [-> | D]; [rewrite H; easy|].
  rewrite N by lia. apply IH; [lia|exact H|intros j J1 J2; apply N; lia].
Qed.
Lemma starts_head a w l : match l with b :: _ => b <> a | [] => True end -> starts_with (a :: w) l = false.
Proof. destruct l as [|b l]; [easy|]. intros H. cbn [starts_with]. replace (a =? b) with false by lia. easy. Qed.
Lemma skipn_head j (l : list Z) : match skipn j l with b :: _ => In b l | [] => True end.
Proof. destruct (skipn j l) as [|b t] eqn:E; [easy|]. rewrite <- (firstn_skipn j l), E. apply in_or_app. right. left. easy. Qed.
(** a word whose first byte does not come again is found where it stands *)
Lemma find_back_word a c w mid k range : a <> [] -> ~ In c (w ++ mid) -> (length (c :: w ++ mid) < range)%nat ->
  find_back (a ++ (c :: w) ++ mid ++ k) (c :: w) range (Z.of_nat (length (a ++ (c :: w) ++ mid))) = Ok (Z.of_nat (length a)).
Proof.
  intros NA NI L. unfold find_back. rewrite Nat2Z.id. set (pos := length (a ++ (c :: w) ++ mid)). set (size := Nat.min pos range).
  set (start := (pos - size)%nat). assert (LA : (0 < length a)%nat) by (destruct a; [easy|cbn; lia]).
  assert (LP : pos = (length a + length (c :: w ++ mid))%nat) by (unfold pos; rewrite app_length; easy).
  assert (ST : (start < length a)%nat) by (unfold start, size; lia).
  assert (BUF : firstn size (skipn start (a ++ (c :: w) ++ mid ++ k)) = skipn start a ++ (c :: w) ++ mid).
  { rewrite skipn_app. replace (start - length a)%nat with O by lia. cbn [skipn].
    replace (skipn start a ++ (c :: w) ++ mid ++ k) with ((skipn start a ++ (c :: w) ++ mid) ++ k) by (rewrite <- !app_assoc; easy).
    assert (LS : length (skipn start a ++ (c :: w) ++ mid) = size).
    { rewrite !app_length, skipn_length. cbn [length] in *. rewrite app_length in LP. unfold start in *. lia. }
    rewrite firstn_app, LS, Nat.sub_diag, firstn_O, app_nil_r. apply firstn_all2. lia. }
  rewrite BUF. rewrite (search_back_found (c :: w) _ (length a - start)).
  - destruct (length a - start)%nat eqn:Q; [lia|]. f_equal. lia.
  - cbn [length] in *. rewrite app_length in LP. unfold start in *. lia.
  - rewrite skipn_app, skipn_length, Nat.sub_diag, skipn_all2 by (rewrite skipn_length; lia).
    apply starts_with_spec. exists mid. reflexivity.
  - intros j J1 J2. apply starts_head. rewrite skipn_app, skipn_length, (skipn_all2 (skipn start a)) by (rewrite skipn_length; lia). cbn [app].
    destruct (j - (length a - start))%nat as [|i] eqn:Q; [lia|]. cbn [skipn]. pose proof (skipn_head i (w ++ mid)) as H.
    destruct (skipn i (w ++ mid)) as [|b t]; [easy|]. intros ->. contradiction.
Qed.
Lemma ws_no_s l c : Forall (fun c => is_ws c = true) l -> is_ws c = false -> ~ In c l.
Proof. intros F W I. rewrite Forall_forall in F. rewrite (F c I) in W. discriminate. Qed.
Lemma tok_wss buf w k : Forall (fun c => is_ws c = true) w -> tok buf (w ++ k) = tok buf k.
Proof. induction 1 as [|c w C _ IH]; [easy|]. cbn [app]. rewrite tok_ws by exact C. exact IH. Qed.
Lemma dec_tok n r : 0 <= n < 2 ^ 63 -> stops r -> tok 4095 (dec n ++ r) = Some ((TLit, dec n), r) /\ from_chars_int (dec n) = Some n.
Proof.
  intros H S0. destruct (dec_spec n ltac:(lia)) as (D1 & D2 & D3). pose proof (dec_len n 20 ltac:(lia) ltac:(lia)) as DL. split.
  - apply tok_lit; [exact D3|apply dec_regular; lia|exact S0|lia].
  - rewrite <- (dec_signed_nonneg n) by lia. apply from_chars_dec. unfold int64_ok. lia.
Qed.
Lemma end_found strict file n : has_end strict file n -> exists last, check_eof strict file = Ok last /\
  forall magic, exists s, find_xref strict magic file last [] = (Ok (u64 (n + magic)), s) /\ tq s = [].
Proof.
  intros (a & w & w2 & c & k & F & NA & NW & WS & N & K & L). apply Forall_app in WS. destruct WS as [W1 W2]. apply Forall_app in W2. destruct W2 as [W2 W3].
  pose proof (Forall_inv W3) as Wc.
  assert (P : exists last, check_eof strict file = Ok last /\
    find_back file (bs "startxref") 512 (Z.of_nat (length file) - last) = Ok (Z.of_nat (length a)) /\ 0 <= Z.of_nat (length file) - last).
  { set (x := a ++ bs "startxref" ++ w ++ dec n ++ w2 ++ [c]) in *.
    assert (FX : file = x ++ bs "%%EOF" ++ k) by (rewrite F; unfold x; rewrite <- !app_assoc; easy).
    assert (LF : length file = (length x + 5 + length k)%nat) by (rewrite FX, !app_length; change (length (bs "%%EOF")) with 5%nat; lia).
    unfold check_eof. replace (Nat.ltb (length file) 5) with false by (symmetry; apply Nat.ltb_ge; lia).
    assert (ND : forall b, In b (dec n) -> 48 <= b <= 57).
    { intros b I. destruct (dec_spec n ltac:(lia)) as (D & _). rewrite Forall_forall in D. apply digit_char. apply D. exact I. }
    assert (NS : forall m, (forall b, In b m -> is_ws b = true \/ 48 <= b <= 57 \/ In b (bs "%%EOF")) -> ~ In 115 (bs "tartxref" ++ m)).
    { intros m H I. apply in_app_or in I. destruct I as [I | I]; [cbn in I; intuition discriminate|].
      destruct (H _ I) as [A | [A | A]]; [discriminate|lia|cbn in A; intuition discriminate]. }
    destruct strict.
    - subst k. replace (skipn (length file - 5) file) with (bs "%%EOF").
      2:{ rewrite FX at 2. rewrite app_nil_r, skipn_app. replace (length file - 5 - length x)%nat with O by (cbn [length] in LF; lia).
          rewrite skipn_all2 by (cbn [length] in LF; lia). reflexivity. }
      change (starts_with eof_marker (bs "%%EOF")) with true. exists 0. split; [easy|]. split; [|lia]. rewrite Z.sub_0_r.
      set (mid := w ++ dec n ++ w2 ++ [c] ++ bs "%%EOF").
      assert (F2 : file = a ++ (115 :: bs "tartxref") ++ mid ++ []) by (rewrite F; unfold mid; rewrite !app_nil_r; easy).
      replace (length file) with (length (a ++ (115 :: bs "tartxref") ++ mid)) by (rewrite F2, app_nil_r; easy).
      rewrite F2. change (bs "startxref") with (115 :: bs "tartxref"). apply find_back_word; [exact NA| |].
      + apply NS. intros b I. unfold mid in I. rewrite !in_app_iff in I. rewrite Forall_forall in *. destruct I as [I | [I | [I | [I | I]]]]; auto.
      + unfold mid. repeat (rewrite !app_length in *; cbn [length] in * ). change (length (bs "startxref")) with 9%nat in *. change (length (bs "tartxref")) with 8%nat in *. change (length (bs "%%EOF")) with 5%nat in *. lia.
    - rewrite (search_back_found eof_marker file (length x)).
      + exists (Z.of_nat (length file) - Z.of_nat (length x) + 1). split; [easy|]. set (mid := w ++ dec n ++ w2).
        assert (F2 : file = a ++ (115 :: bs "tartxref") ++ mid ++ [c] ++ bs "%%EOF" ++ k) by (rewrite F; unfold mid; rewrite <- !app_assoc; easy).
        assert (LX : Z.of_nat (length file) - (Z.of_nat (length file) - Z.of_nat (length x) + 1) = Z.of_nat (length (a ++ (115 :: bs "tartxref") ++ mid))).
        { unfold x, mid. repeat (rewrite !app_length; cbn [length]). change (length (bs "startxref")) with 9%nat. change (length (bs "tartxref")) with 8%nat. lia. }
        split; [|lia]. rewrite LX, F2. change (bs "startxref") with (115 :: bs "tartxref"). apply find_back_word; [exact NA| |].
        * apply NS. intros b I. unfold mid in I. rewrite !in_app_iff in I. rewrite Forall_forall in *. destruct I as [I | [I | I]]; auto.
        * unfold mid. repeat (rewrite !app_length in *; cbn [length] in * ). change (length (bs "startxref")) with 9%nat in *. change (length (bs "tartxref")) with 8%nat in *. change (length (bs "%%EOF")) with 5%nat in *. lia.
      + lia.
      + apply starts_with_spec. exists k. rewrite FX, skipn_app, skipn_all, Nat.sub_diag. easy.
      + intros j J1 J2. destruct (starts_with eof_marker (skipn j file)) eqn:SW; [|easy]. exfalso. apply starts_with_spec in SW. destruct SW as [q Q].
        apply (K (j - length x)%nat ltac:(lia)). exists q. change (bs "%%EOF" ++ q) with (eof_marker ++ q). rewrite <- Q, FX, (skipn_app j). rewrite (skipn_all2 x) by lia. easy. }
  destruct P as (last & C & FB & POS). exists last. split; [exact C|]. intros magic. unfold find_xref.
  replace (Z.of_nat (length file) - last <? 0) with false by lia. rewrite FB.
  rewrite Nat2Z.id. replace (skipn (length a) file) with (bs "startxref" ++ w ++ dec n ++ w2 ++ [c] ++ bs "%%EOF" ++ k).
  2:{ rewrite F, skipn_app, skipn_all, Nat.sub_diag. easy. }
  unfold is_next, next_token. cbn [tq tin]. rewrite tok_lit.
  - cbn [snd]. rewrite beq_refl. destruct (dec_tok n (w2 ++ [c] ++ bs "%%EOF" ++ k) N) as [T V].
    { destruct w2 as [|b w2]; [left; exact Wc|left; exact (Forall_inv W2)]. }
    rewrite (next_number_in 4095 TLit (dec n) _ (w2 ++ [c] ++ bs "%%EOF" ++ k) n); [|rewrite tok_wss by exact W1; exact T|exact V].
    eexists. split; reflexivity.
  - discriminate.
  - repeat constructor.
  - destruct w as [|b w]; [easy|]. left. exact (Forall_inv W1).
  - cbn; lia.
Qed.

(** ** The sections that are visited *)
Lemma NoDup_both (l k : list Z) : NoDup l -> NoDup k -> (forall x, In x l -> ~ In x k) -> NoDup (l ++ k).
Proof.
  induction 1 as [|x l I _ IH]; intros K D; [exact K|]. cbn [app]. constructor.
  - rewrite in_app_iff. intros [A | A]; [exact (I A)|exact (D x (or_introl eq_refl) A)].
  - apply IH; [exact K|]. intros y Y. apply D. right. exact Y.
Qed.
Definition budget (j : job) : nat := match j with JTable _ => 0 | _ => 1 end.
Definition grows (b : nat) (st st' : pst) : Prop :=
  exists new read, visited st' = new ++ visited st /\ slog st' = read ++ slog st /\ NoDup new /\
    (forall x, In x new -> ~ In x (visited st)) /\ (length read <= 2 * length new + b)%nat.
Lemma grows_refl b st : grows b st st.
Proof. exists [], []. repeat split; [constructor|auto|cbn; lia]. Qed.
Lemma grows_same b st st' : visited st' = visited st -> slog st' = slog st -> grows b st st'.
Proof. intros V L. exists [], []. rewrite V, L. repeat split; [constructor|auto|cbn; lia]. Qed.
Lemma grows_trans b b' c st st' st'' : (b + b' <= c)%nat -> grows b st st' -> grows b' st' st'' -> grows c st st''.
Proof.
  intros C (n & r & V & R & ND & NI & L) (n' & r' & V' & R' & ND' & NI' & L'). exists (n' ++ n), (r' ++ r).
  rewrite V', V, R', R, !app_assoc. repeat split.
  - apply NoDup_both; [exact ND'|exact ND|]. intros x I. specialize (NI' x I). rewrite V, in_app_iff in NI'. tauto.
  - intros x I. apply in_app_or in I. destruct I as [I | I]; [|auto]. specialize (NI' x I). rewrite V, in_app_iff in NI'. tauto.
  - rewrite !app_length. lia.
Qed.
Lemma grows_log off st st' : visited st' = visited st -> slog st' = off :: slog st -> grows 1 st st'.
Proof. intros V L. exists [], [off]. rewrite V, L. repeat split; [constructor|auto|cbn; lia]. Qed.
Lemma grows_visit b off st st' : ~ In off (visited st) -> (b <= 2)%nat -> grows b (visit off st) st' -> grows 0 st st' /\ In off (visited st').
Proof.
  intros NI B (n & r & V & R & ND & NN & L). cbn [visit visited slog] in *. split.
  - exists (n ++ [off]), r. rewrite V, <- app_assoc. repeat split; [exact R| | |rewrite app_length; cbn; lia].
    + apply NoDup_both; [exact ND|repeat constructor; auto|]. intros x I [<- | []]. apply (NN off I). left. easy.
    + intros x I. apply in_app_or in I. destruct I as [I | [<- | []]]; [|exact NI]. intros J. apply (NN x I). right. exact J.
  - rewrite V. apply in_or_app. right. left. easy.
Qed.

Lemma run_grows E d : forall j st r st', run E d j st = (r, st') ->
  grows (budget j) st st' /\ match j with JTable off => (exists e, r = Err e) \/ In off (visited st') | _ => True end.
Proof.
  induction d as [|d IH]; intros j st r st' H; [injection H as <- <-; split; [apply grows_refl|destruct j; eauto]|].
  cbn [run] in H. destruct j as [off | inp | off].
  - destruct (memz off (visited st)) eqn:M; [injection H as <- <-; split; [apply grows_refl|left; eauto]|]. apply memz_out in M.
    assert (G : exists b, (b <= 2)%nat /\ grows b (visit off st) st').
    { destruct (locate E off (visit off st)) as [[p | e | |] q]; try (injection H as <- <-; exists O; split; [lia|apply grows_same; easy]).
      destruct (next_token 4095 (mk_tst q (skipn (Z.to_nat p) (pfile E)))) as [[t s]|]; [|injection H as <- <-; exists O; split; [lia|apply grows_same; easy]].
      destruct (beq (snd t) (bs "xref")).
      - destruct (read_sections 512 4095 (pmagic E) s (ents (visit off st))) as [[x s2] es].
        set (st2 := log p (with_ents es (with_queue (tq s2) (visit off st)))) in *.
        assert (G2 : grows 1 (visit off st) st2) by (apply (grows_log p); easy).
        destruct x as [u | e | |]; try (injection H as <- <-; exists 1%nat; split; [lia|exact G2]).
        destruct (run E d (JTrailer (tin s2)) st2) as [r3 st3] eqn:R3. destruct (IH _ _ _ _ R3) as [G3 _].
        exists 2%nat. split; [lia|]. apply (grows_trans 1 1 2 _ st2); [lia|exact G2|].
        destruct r3 as [u3 | e3 | |]; [|destruct e3| |]; injection H as <- <-; exact G3.
      - destruct (pv13 E); [|injection H as <- <-; exists O; split; [lia|apply grows_same; easy]].
        destruct (IH _ _ _ _ H) as [G3 _]. exists 1%nat. split; [lia|]. apply (grows_trans 0 1 1 _ (with_queue (tq s) (visit off st))); [lia|apply grows_same; easy|exact G3]. }
    destruct G as (b & B & G). destruct (grows_visit b off st st' M B G) as [G1 G2]. split; [exact G1|right; exact G2].
  - split; [|exact I]. destruct (is_next (bs "trailer") (mk_tst (queue st) inp)) as [[[] | e | |] s]; try (injection H as <- <-; apply grows_same; easy).
    destruct (read_trailer d (tin s)) as [t | e | |]; try (injection H as <- <-; apply grows_same; easy).
    set (st2 := take_trailer t (with_queue (tq s) st)) in *. assert (G2 : grows 0 st st2) by (apply grows_same; easy).
    match type of H with (let '(a, b) := ?X in _) = _ => destruct X as [r3 st3] eqn:R3 end.
    assert (G3 : grows 1 st st3).
    { apply (grows_trans 0 1 1 _ st2); [lia|exact G2|]. destruct (has_key t (bs "XRefStm")); [|injection R3 as <- <-; apply grows_refl].
      destruct (key_number t (bs "XRefStm") 0) as [n | e | |]; try (injection R3 as <- <-; apply grows_refl). exact (proj1 (IH _ _ _ _ R3)). }
    destruct r3 as [u | e | |]; try (injection H as <- <-; exact G3).
    destruct (find_direct t (bs "Prev")) as [[| |n| | | | | |]|]; try (injection H as <- <-; exact G3).
    destruct ((0 <? n) && negb (memz n (visited st3))); [|injection H as <- <-; exact G3].
    apply (grows_trans 1 0 1 _ st3); [lia|exact G3|exact (proj1 (IH _ _ _ _ H))].
  - split; [|exact I]. destruct (pstm E d off) as [[t data] | e | |]; try (injection H as <- <-; apply grows_same; easy).
    destruct (stream_prev t) as [prev | e | |]; try (injection H as <- <-; apply grows_same; easy).
    set (st1 := log off (take_trailer t st)) in *. assert (G1 : grows 1 st st1) by (apply (grows_log off); easy).
    destruct (stream_table t data (ents st1)) as [es | e | |]; try (injection H as <- <-; exact G1).
    assert (G2 : grows 1 st (with_ents es st1)) by (apply (grows_log off); easy).
    destruct prev as [p|]; [|injection H as <- <-; exact G2]. destruct (p =? off); [injection H as <- <-; exact G2|].
    destruct (run E d (JTable p) (with_ents es st1)) as [r3 st3] eqn:R3. pose proof (proj1 (IH _ _ _ _ R3)) as G3.
    assert (G4 : grows 1 st st3) by (apply (grows_trans 1 0 1 _ (with_ents es st1)); [lia|exact G2|exact G3]).
    destruct r3 as [u3 | e3 | |]; [|destruct e3| |]; injection H as <- <-; exact G4.
Qed.

(** ** It stops *)
Ltac nofuel := repeat match goal with
  | |- context [match ?x with _ => _ end] => destruct x eqn:?
  | |- _ <> Fuel => discriminate
  end.
Lemma next_number_nf buf s : fst (next_number buf s) <> Fuel.
Proof. unfold next_number. nofuel; cbn [fst]; discriminate. Qed.
Lemma scan_entry_nf m b : scan_entry m b <> Fuel.
Proof. unfold scan_entry. nofuel. Qed.
Lemma read_entries_nf n : forall i m inp es, fst (fst (read_entries n i m inp es)) <> Fuel.
Proof.
  induction n as [|n IH]; intros i m inp es; [discriminate|]. cbn [read_entries]. destruct (Nat.ltb _ _); [discriminate|].
  destruct (nth_error es (Z.to_nat i)) as [[e|]|]; try apply IH. pose proof (scan_entry_nf m (firstn 20 inp)) as N.
  destruct (scan_entry m (firstn 20 inp)); [apply IH|discriminate|discriminate|contradiction].
Qed.
Lemma enlarge_nf n es : enlarge n es <> Fuel.
Proof. unfold enlarge. nofuel. Qed.
Lemma read_subsection_nf f c m inp es : fst (fst (read_subsection f c m inp es)) <> Fuel.
Proof.
  unfold read_subsection. destruct (f <? 0); [discriminate|]. destruct (c <? 0); [discriminate|]. destruct (negb _); [discriminate|].
  pose proof (enlarge_nf (f + c) es) as N. destruct (enlarge (f + c) es); [apply read_entries_nf|discriminate|discriminate|contradiction].
Qed.
Lemma read_sections_nf k buf m : forall s es, fst (fst (read_sections k buf m s es)) <> Fuel.
Proof.
  induction k as [|k IH]; intros s es; [discriminate|]. cbn [read_sections].
  destruct (match next_token buf s with Some (t, s') => (beq (snd t) (bs "trailer"), enqueue s' t) | None => (false, s) end) as [[] s0]; [discriminate|].
  pose proof (next_number_nf buf s0) as N0. destruct (next_number buf s0) as [[f | e | |] s1]; try (destruct (ends_table e)); try discriminate; [|contradiction].
  pose proof (next_number_nf buf s1) as N1. destruct (next_number buf s1) as [[c | e | |] s2]; try (destruct (ends_table e)); try discriminate; [|contradiction].
  pose proof (read_subsection_nf f c m (tin s2) es) as N2. destruct (read_subsection f c m (tin s2) es) as [[r inp] es'].
  destruct r as [u | e | |]; [apply IH|destruct (ends_table e); discriminate|discriminate|contradiction].
Qed.
Lemma bind_nf {A B} (r : res A) (f : A -> res B) : r <> Fuel -> (forall a, f a <> Fuel) -> bind r f <> Fuel.
Proof. intros R F. destruct r; [apply F|discriminate|discriminate|contradiction]. Qed.
Lemma read_field_nf w : forall a m, read_field w a m <> Fuel.
Proof. induction w as [|w IH]; intros a m; [discriminate|]. cbn [read_field]. destruct m; [discriminate|apply IH]. Qed.
Lemma read_raw_nf a b c m : read_raw a b c m <> Fuel.
Proof.
  assert (W : forall w m, read_width w m <> Fuel) by (intros w n; unfold read_width; nofuel; try apply read_field_nf).
  unfold read_raw. apply bind_nf; [apply W|]. intros p. apply bind_nf; [apply W|]. intros q. apply bind_nf; [apply W|]. intros r. cbv zeta. nofuel.
Qed.
Lemma read_raws_nf n a b c : forall i m es, read_raws n i a b c m es <> Fuel.
Proof.
  induction n as [|n IH]; intros i m es; [discriminate|]. cbn [read_raws]. destruct m as [|x [|y m]]; [discriminate|discriminate|].
  apply bind_nf; [|intros; apply IH]. destruct (nth_error es (Z.to_nat (u32 i))) as [[e|]|]; try discriminate. apply bind_nf; [apply read_raw_nf|discriminate].
Qed.
Lemma read_pairs_nf a b c : forall n idx m es, (length idx <= n)%nat -> read_pairs idx a b c m es <> Fuel.
Proof.
  induction n as [|n IH]; intros idx m es L; [destruct idx; [discriminate|cbn in L; lia]|]. destruct idx as [|f [|k idx]]; [discriminate|discriminate|].
  cbn [read_pairs]. destruct (negb _); [discriminate|]. apply bind_nf; [apply enlarge_nf|]. intros es1. apply bind_nf; [apply read_raws_nf|]. intros p. apply IH. cbn in L. lia.
Qed.
Lemma stream_table_nf d data es : stream_table d data es <> Fuel.
Proof.
  unfold stream_table. apply bind_nf; [unfold key_number; nofuel|]. intros size.
  assert (P : forall a b c idx, parse_stream a b c idx data es <> Fuel).
  { intros. unfold parse_stream. destruct (_ || _); [discriminate|]. destruct (_ <? _); [discriminate|]. destruct (Nat.odd _); [discriminate|]. apply (read_pairs_nf _ _ _ _ _ _ _ (le_n _)). }
  nofuel; apply P.
Qed.
Lemma find_back_nf f w r p : find_back f w r p <> Fuel.
Proof. unfold find_back. cbv zeta. nofuel. Qed.
Lemma is_next_nf w s : fst (is_next w s) <> Fuel.
Proof. unfold is_next. destruct (next_token 4095 s) as [[t s']|]; discriminate. Qed.
Lemma find_xref_nf b m f l q : fst (find_xref b m f l q) <> Fuel.
Proof.
  unfold find_xref. cbv zeta. destruct (_ <? 0); [discriminate|].
  assert (NN : forall s, fst match next_number 4095 s with (Ok n, s') => (Ok (u64 (n + m)), s') | (Err e, s') => (Err e, s') | (UB, s') => (UB, s') | (Fuel, s') => (Fuel, s') end <> @Fuel Z).
  { intros s. pose proof (next_number_nf 4095 s) as N. destruct (next_number 4095 s) as [[n | e | |] s']; cbn in *; congruence. }
  pose proof (find_back_nf f (bs "startxref") 512 (Z.of_nat (length f) - l)) as N1. destruct (find_back _ (bs "startxref") _ _) as [p | e | |]; try discriminate; [|contradiction].
  pose proof (is_next_nf (bs "startxref") (mk_tst q (skipn (Z.to_nat p) f))) as N2. destruct (is_next (bs "startxref") _) as [[[] | e | |] s]; try discriminate; [|destruct b; [discriminate|]|contradiction].
  - specialize (NN s). destruct (next_number 4095 s) as [[n | e | |] s']; exact NN.
  - pose proof (find_back_nf f (bs "startref") 512 (Z.of_nat (length f) - l)) as N3. destruct (find_back _ (bs "startref") _ _) as [p' | e | |]; try discriminate; [|contradiction].
    pose proof (is_next_nf (bs "startref") (mk_tst (tq s) (skipn (Z.to_nat p') f))) as N4. destruct (is_next (bs "startref") _) as [[[] | e | |] s']; try discriminate; [|contradiction].
    specialize (NN s'). destruct (next_number 4095 s') as [[n | e | |] s'']; exact NN.
Qed.
Lemma run_nofuel E : (forall d off, pstm E d off <> Fuel) -> forall d j st, fst (run E d j st) <> Fuel.
Proof.
  intros PS. induction d as [|d IH]; intros j st; [discriminate|]. cbn [run]. destruct j as [off | inp | off].
  - destruct (memz off (visited st)); [discriminate|].
    assert (L : fst (locate E off (visit off st)) <> Fuel).
    { unfold locate. destruct (_ <? off); [|discriminate]. pose proof (find_xref_nf (pstrict E) (pmagic E) (pfile E) (lasteof (visit off st)) (queue (visit off st))) as N.
      destruct (find_xref _ _ _ _ _) as [[n | e | |] s]; cbn [fst] in *; [apply find_back_nf|discriminate|discriminate|exact N]. }
    destruct (locate E off (visit off st)) as [[p | e | |] q]; try discriminate; [|contradiction].
    destruct (next_token 4095 _) as [[t s]|]; [|discriminate]. destruct (beq (snd t) (bs "xref")).
    + pose proof (read_sections_nf 512 4095 (pmagic E) s (ents (visit off st))) as N. destruct (read_sections _ _ _ _ _) as [[x s2] es]. cbn [fst] in N.
      destruct x as [u | e | |]; try discriminate; [|contradiction].
      match goal with |- context [run E d ?j ?s] => pose proof (IH j s) as N2; destruct (run E d j s) as [[u3 | e3 | |] st3] end; try exact N2. destruct e3; discriminate.
    + destruct (pv13 E); [apply IH|discriminate].
  - pose proof (is_next_nf (bs "trailer") (mk_tst (queue st) inp)) as N. destruct (is_next (bs "trailer") _) as [[[] | e | |] s]; try discriminate; [|contradiction].
    assert (T : read_trailer d (tin s) <> Fuel).
    { unfold read_trailer. destruct (next_token 4095 _) as [[t s']|]; [|discriminate]. destruct (beq (snd t) (bs "endobj")); [discriminate|].
      pose proof (parse_nofuel (mk_rp 4095 true d) (tin s)) as N1. destruct (parse _ _) as [[o s1] | e | |]; [|discriminate|discriminate|contradiction]. destruct o as [[]|]; discriminate. }
    destruct (read_trailer d (tin s)) as [t | e | |]; try discriminate; [|contradiction].
    match goal with |- fst (let '(a, b) := ?X in _) <> _ => assert (NX : fst X <> Fuel) end.
    { destruct (has_key t (bs "XRefStm")); [|discriminate]. assert (K : key_number t (bs "XRefStm") 0 <> Fuel) by (unfold key_number; nofuel).
      destruct (key_number t (bs "XRefStm") 0) as [n | e | |]; [apply IH|discriminate|discriminate|contradiction]. }
    match goal with |- fst (let '(a, b) := ?X in _) <> _ => destruct X as [[u | e | |] st3] end; try discriminate; [|contradiction].
    destruct (find_direct t (bs "Prev")) as [[| |n| | | | | |]|]; try discriminate. destruct (_ && _); [apply IH|discriminate].
  - specialize (PS d off). destruct (pstm E d off) as [[t data] | e | |]; try discriminate; [|contradiction].
    assert (SP : stream_prev t <> Fuel) by (unfold stream_prev; destruct (has_key t (bs "Prev")); [|discriminate]; apply bind_nf; [nofuel|discriminate]).
    destruct (stream_prev t) as [prev | e | |]; try discriminate; [|contradiction]. pose proof (stream_table_nf t data (ents (log off (take_trailer t st)))) as N.
    destruct (stream_table _ _ _) as [es | e | |]; try discriminate; [|contradiction]. destruct prev as [p|]; [|discriminate]. destruct (p =? off); [discriminate|].
    match goal with |- context [run E d ?j ?s] => pose proof (IH j s) as N2; destruct (run E d j s) as [[u3 | e3 | |] st3] end; try exact N2. destruct e3; discriminate.
Qed.

(** ** Chains *)
Lemma closed_top l : NoDup (map coff l) -> forall y, In y l -> In y l \/ In (coff y) (@nil Z).
Proof. auto. Qed.
Definition fresh_for (l : list csec) (st : pst) : Prop :=
  queue st = [] /\ ents st = [] /\ trail st = None /\ forall x, In x l -> ~ In (coff x) (visited st).
Lemma present_sorted E x : present E x -> sorted (cdict x).
Proof. intros (_ & _ & W & _). exact (proj1 W). Qed.
Lemma chain_known E x l st : pmagic E = 0 -> Z.of_nat (length (pfile E)) < 2 ^ 63 -> Forall (present E) (x :: l) -> closed (x :: l) (x :: l) ->
  NoDup (map coff (x :: l)) -> fresh_for (x :: l) st -> (forall y, In y (x :: l) -> 2 * length (x :: l) + cneed y <= levels)%nat ->
  exists st' t, run E levels (JTable (coff x)) st = (Ok tt, st') /\ queue st' = [] /\ visited st' = rev (map coff (x :: l)) ++ visited st /\
    (forall n r, 0 <= n -> (look (ents st') n = Some r <-> newest E (x :: l) n r)) /\
    trail st' = Some t /\
    (forall k, dict_get k t = if key_in k merged_keys then newest_key k (x :: l) else dict_get k (cdict x)).
Proof.
  intros M FL PR CL ND (Q & EN & TR & NV) D.
  pose proof (chain_run E (x :: l) FL M (x :: l) st levels PR CL ND Q ltac:(auto) NV D) as R. cbv beta iota in R.
  destruct (ends_trail_new E x l st) as (t & T & G); [|exact TR|].
  { apply Forall_forall. intros y I. apply (present_sorted E). rewrite Forall_forall in PR. auto. }
  exists (ends E (x :: l) st), t. split; [exact R|].
  assert (V : forall l st, visited (ends E l st) = rev (map coff l) ++ visited st /\ queue (ends E l st) = queue st).
  { clear. induction l as [|y l IH]; intros st; [easy|]. change (ends E (y :: l) st) with (ends E l (after E y st)).
    destruct (IH (after E y st)) as [A B]. rewrite A, B. cbn [map rev after visited queue]. rewrite <- app_assoc. easy. }
  destruct (V (x :: l) st) as [V1 V2]. split; [rewrite V2; exact Q|]. split; [exact V1|]. split; [|split; [exact T|exact G]].
  intros n r N. pose proof (ends_look E (x :: l) (or_introl M) PR st n N) as L. rewrite EN in L.
  replace (look [] n) with (@None rent) in L by (unfold look; destruct (Z.to_nat n); easy). apply L.
Qed.

Lemma trailer_err E x st d : present E x -> cstream x = false -> queue st = [] -> ~ In (coff x) (visited st) -> 0 <= pmagic E ->
  (d = 0)%nat -> exists st', run E (S (S d)) (JTable (coff x)) st = (Err EInvalidXRef, st').
Proof.
  intros (O1 & W & WO & PR) CS Q NV M D. rewrite CS in PR. destruct PR as (LM & LN & NX & fl & t & k & F & T & S0).
  cbn [run]. replace (memz (coff x) (visited st)) with false by (symmetry; apply memz_out; exact NV).
  rewrite locate_in by exact O1. change (queue (visit (coff x) st)) with (queue st). rewrite Q, S0.
  pose proof (read_table_text 4095 (pmagic E) (csecs x) (ents st) ([10] ++ t ++ k) ltac:(lia) M W LM LN ltac:(left; easy)) as R.
  unfold read_table in R. destruct (table_text_tok (csecs x) (bs "trailer" ++ [10] ++ t ++ k)) as [s Hs]. rewrite Hs in R |- *.
  cbn [snd] in R |- *. rewrite beq_refl in R |- *.
  change (ents (visit (coff x) st)) with (ents st). assert (R' : forall (a b : res unit * tst * rents), Some a = Some b -> a = b) by congruence.
  apply R' in R. rewrite R. cbn match. cbn [tq tin].
  unfold is_next, next_token. cbn [queue tq tin with_queue log with_ents]. cbn [snd]. rewrite beq_refl. cbn [tq tin].
  assert (RT : read_trailer d ([10] ++ t ++ k) = Err EInvalidXRef).
  { subst d. unfold read_trailer, parse, read_next, next_token. cbn [tq tin app]. rewrite tok_ws by easy.
    destruct (write_dict fl (cdict x) t (proj1 WO) T) as (y & _ & ->).
    assert (K : exists r, tok 4095 (((if wclean fl then [60; 60; 10] else [60; 60]) ++ y ++ [62; 62]) ++ k) = Some ((TDLAng, bs "<<"), r)).
    { destruct (wclean fl); cbn [app]; eexists; reflexivity. }
    destruct K as [r ->]. cbn [rbuf snd]. rewrite tok_ws by easy.
    assert (K : exists r, tok 4095 (((if wclean fl then [60; 60; 10] else [60; 60]) ++ y ++ [62; 62]) ++ k) = Some ((TDLAng, bs "<<"), r)).
    { destruct (wclean fl); cbn [app]; eexists; reflexivity. }
    destruct K as [r' ->]. change (beq (bs "<<") (bs "endobj")) with false.
    match goal with |- context [read_variant _ ?f _ _ _] => destruct f as [|f0] eqn:FF; [cbn [length] in FF; lia|] end. reflexivity. }
  rewrite RT. eexists. reflexivity.
Qed.
Lemma long_chain E : Z.of_nat (length (pfile E)) < 2 ^ 63 -> pmagic E = 0 -> forall k l st, Forall (present E) l -> linked E l ->
  NoDup (map coff l) -> Forall (fun x => cstream x = false /\ (cneed x <= 2)%nat) l -> queue st = [] ->
  (forall x, In x l -> ~ In (coff x) (visited st)) -> (k <= length l)%nat ->
  match l with [] => True | x :: _ => exists st', run E (2 * k) (JTable (coff x)) st = (Err EInvalidXRef, st') end.
Proof.
  intros FL M. induction k as [|k IH]; intros l st PR LK ND FT Q NV LE; [destruct l; [easy|]; eexists; reflexivity|].
  destruct l as [|x l]; [easy|]. pose proof (Forall_inv PR) as Px. destruct (Forall_inv FT) as [CS CN].
  replace (2 * S k)%nat with (S (S (2 * k))) by lia. destruct k as [|k].
  { apply (trailer_err E x st); [exact Px|exact CS|exact Q|apply NV; left; easy|lia|lia]. }
  destruct l as [|y l]; [cbn [length] in LE; lia|]. destruct LK as (L1 & L2 & L3). rewrite M, Z.sub_0_r in L1, L2.
  cbn [map] in ND. apply NoDup_cons_iff in ND. destruct ND as [ND1 ND2].
  destruct (IH (y :: l) (after E x st)) as [st' R]; [exact (Forall_inv_tail PR)|exact L3|exact ND2|exact (Forall_inv_tail FT)|exact Q| |cbn [length] in *; lia|].
  { intros z I [A | A]; [apply ND1; rewrite A; exact (in_map coff (y :: l) z I)|exact (NV z (or_intror I) A)]. }
  exists st'. rewrite (table_step E x st (2 * S k) Px CS Q); [|apply NV; left; easy|lia|lia]. rewrite (find_direct_num _ _ _ L1).
  replace (0 <? coff y) with true by lia. replace (memz (coff y) (visited (after E x st))) with false.
  2:{ symmetry. apply memz_out. intros [A | A]; [apply ND1; left; symmetry; exact A|apply (NV y); [right; left; easy|exact A]]. }
  cbn [andb negb]. rewrite R. reflexivity.
Qed.

(** ** Whole files *)
Lemma header_at_start file v : has_header file v -> is_pdf_file file = Some (0, get_version v).
Proof.
  intros (V & r & ->). change (bs "%PDF-" ++ v ++ r) with ([] ++ bs "%PDF-" ++ v ++ r). rewrite header_found; [easy| |auto|exact V].
  intros i [k K]. destruct i; discriminate.
Qed.
Lemma file_parsed strict file stm v x l : has_header file v -> has_end strict file (coff x) -> Z.of_nat (length file) < 2 ^ 63 ->
  let E := mk_penv file strict 0 (at_least_13 (get_version v)) stm in
  Forall (present E) (x :: l) -> closed (x :: l) (x :: l) -> NoDup (map coff (x :: l)) ->
  (forall y, In y (x :: l) -> 2 * length (x :: l) + cneed y <= levels)%nat ->
  (exists n, newest_key (bs "Size") (x :: l) = Some (ONum n)) ->
  exists st' t, parse_file strict file stm new_parser = (Ok tt, st') /\ queue st' = [] /\ visited st' = rev (map coff (x :: l)) /\
    (forall n r, 0 <= n -> (look (ents st') n = Some r <-> newest E (x :: l) n r)) /\
    trail st' = Some t /\
    (forall k, dict_get k t = if key_in k merged_keys then newest_key k (x :: l) else dict_get k (cdict x)).
Proof.
  intros H HE FL E PR CL ND D (sz & SZ). unfold parse_file. rewrite (header_at_start _ _ H). fold E. unfold read_structure.
  change (pstrict E) with strict. change (pfile E) with file. change (pmagic E) with 0. destruct (end_found strict file (coff x) HE) as (last & C & FX). rewrite C.
  destruct (FX 0) as (s & F0 & Q). cbn [queue reset new_parser]. rewrite F0.
  replace (u64 (coff x + 0)) with (coff x).
  2:{ rewrite Z.add_0_r. symmetry. apply u64_small. pose proof (proj1 (Forall_inv PR)) as O1. change (pfile E) with file in O1. lia. }
  match goal with |- context [run E levels (JTable (coff x)) ?s] => set (st := s) end.
  assert (FR : fresh_for (x :: l) st).
  { unfold st, reset, new_parser, with_queue. cbn [visited ents trail queue lasteof slog]. rewrite Q. repeat split. auto. }
  destruct (chain_known E x l st eq_refl FL PR CL ND FR D) as (st' & t & R & Q' & V & LK & T & G).
  rewrite R, T. unfold key_number, find_direct. rewrite G. change (key_in (bs "Size") merged_keys) with true. rewrite SZ.
  exists st', t. split; [easy|]. split; [exact Q'|]. split; [rewrite V; cbn; apply app_nil_r|]. auto.
Qed.

(** ** Using the parser again *)
Lemma run_visited E d off st : In off (visited st) -> run E (S d) (JTable off) st = (Err EInvalidXRef, st).
Proof. intros V. cbn [run]. replace (memz off (visited st)) with true by (symmetry; apply memz_in; exact V). easy. Qed.
Lemma again_fails strict file stm st st' : queue st = [] -> queue st' = [] -> parse_file strict file stm st = (Ok tt, st') ->
  exists st'', parse_file strict file stm st' = (Err EInvalidXRef, st'').
Proof.
  intros Q Q' P. unfold parse_file in *. destruct (is_pdf_file file) as [[magic v]|]; [|discriminate].
  set (E := mk_penv file strict magic (at_least_13 v) stm) in *. unfold read_structure in *.
  destruct (check_eof (pstrict E) (pfile E)) as [last | e | |]; try discriminate. cbn [queue reset] in *. rewrite Q in P. rewrite Q'.
  destruct (find_xref (pstrict E) (pmagic E) (pfile E) last []) as [[off | e | |] s]; try discriminate.
  match type of P with context [run E levels (JTable off) ?s] => destruct (run E levels (JTable off) s) as [r st3] eqn:R end.
  destruct (run_grows E levels _ _ _ _ R) as [_ V]. destruct r as [u | e | |]; try discriminate. destruct V as [[e X] | V]; [discriminate|].
  assert (S3 : st3 = st') by (destruct (trail st3) as [t|]; [destruct (key_number t (bs "Size") (-1))|]; try discriminate; injection P as P; exact P). subst st3.
  change levels with (S 255). rewrite run_visited by exact V. eexists. reflexivity.
Qed.

(** ** The properties *)
Lemma key_in_file k : key_in k merged_keys = true <-> In k file_keys.
Proof. change file_keys with merged_keys. apply key_in_In. Qed.
Lemma file_newest strict file stm v x l : has_header file v -> has_end strict file (coff x) ->
  Z.of_nat (length file) < 2 ^ 63 ->
  let E := mk_penv file strict 0 (at_least_13 (get_version v)) stm in
  Forall (present E) (x :: l) -> closed (x :: l) (x :: l) -> NoDup (map coff (x :: l)) ->
  (forall y, In y (x :: l) -> 2 * length (x :: l) + cneed y <= 256)%nat ->
  (exists n, newest_key (bs "Size") (x :: l) = Some (ONum n)) ->
  exists st t, parse_file strict file stm new_parser = (Ok tt, st) /\
    (forall n r, 0 <= n -> (look (ents st) n = Some r <-> newest E (x :: l) n r)) /\
    trail st = Some t /\
    (forall k, In k file_keys -> dict_get k t = newest_key k (x :: l)) /\
    (forall k, ~ In k file_keys -> dict_get k t = dict_get k (cdict x)).
Proof.
  intros H HE FL E PR CL ND D SZ. destruct (file_parsed strict file stm v x l H HE FL PR CL ND D SZ) as (st & t & P & _ & _ & LK & T & G).
  exists st, t. split; [exact P|]. split; [exact LK|]. split; [exact T|]. split; intros k K; rewrite G.
  - apply key_in_file in K. rewrite K. easy.
  - destruct (key_in k merged_keys) eqn:B; [|easy]. apply key_in_file in B. contradiction.
Qed.
Lemma too_long E x l st : Z.of_nat (length (pfile E)) < 2 ^ 63 -> pmagic E = 0 ->
  Forall (present E) (x :: l) -> linked E (x :: l) -> NoDup (map coff (x :: l)) ->
  Forall (fun y => cstream y = false /\ (cneed y <= 2)%nat) (x :: l) ->
  queue st = [] -> (forall y, In y (x :: l) -> ~ In (coff y) (visited st)) -> (128 <= length (x :: l))%nat ->
  exists st', run E levels (JTable (coff x)) st = (Err EInvalidXRef, st').
Proof. intros FL M PR LK ND FT Q NV L. exact (long_chain E FL M 128 (x :: l) st PR LK ND FT Q NV L). Qed.
Lemma once E d off st r st' : run E d (JTable off) st = (r, st') ->
  exists new read, visited st' = new ++ visited st /\ slog st' = read ++ slog st /\ NoDup new /\
    (forall x, In x new -> ~ In x (visited st)) /\ (length read <= 2 * length new)%nat /\
    ((exists e, r = Err e) \/ In off (visited st')).
Proof.
  intros R. destruct (run_grows E d _ _ _ _ R) as ((new & read & A & B & C & D & L) & V). exists new, read. cbn [budget] in L.
  rewrite Nat.add_0_r in L. auto 8.
Qed.
Lemma check_eof_nf s f : check_eof s f <> Fuel.
Proof. unfold check_eof. destruct (Nat.ltb _ _); [discriminate|]. destruct s; [destruct (starts_with _ _); discriminate|]. destruct (search_back _ _ _); discriminate. Qed.
Lemma parse_file_nofuel strict file stm st : (forall d off, stm d off <> Fuel) -> fst (parse_file strict file stm st) <> Fuel.
Proof.
  intros N. unfold parse_file. destruct (is_pdf_file file) as [[magic v]|]; [|discriminate].
  set (E := mk_penv file strict magic (at_least_13 v) stm). assert (R : fst (read_structure E (reset st)) <> Fuel).
  { unfold read_structure. pose proof (check_eof_nf (pstrict E) (pfile E)) as CE. destruct (check_eof (pstrict E) (pfile E)) as [last | e | |]; try discriminate; [|contradiction].
    match goal with |- context [find_xref ?a ?b ?c ?d ?e] => pose proof (find_xref_nf a b c d e) as FX; destruct (find_xref a b c d e) as [[off | er | |] s] end; try discriminate; [|contradiction].
    match goal with |- context [run E levels ?j ?s] => pose proof (run_nofuel E N levels j s) as RN; destruct (run E levels j s) as [[u | er | |] st3] end; try discriminate; [|contradiction].
    destruct (trail st3) as [t|]; [|discriminate]. unfold key_number. destruct (find_direct t (bs "Size")) as [[]|]; discriminate. }
  destruct (read_structure E (reset st)) as [[u | e | |] s]; cbn [fst] in *; congruence.
Qed.
Lemma like_new strict file stm es t last : parse_file strict file stm (mk_pst [] es t [] last []) = parse_file strict file stm new_parser.
Proof. reflexivity. Qed.
Lemma header_state strict file stm st st' : parse_file strict file stm st = (Err ENoPdfFile, st') -> is_pdf_file file = None ->
  visited st' = visited st /\ queue st' = queue st.
Proof. unfold parse_file. intros H N. rewrite N in H. injection H as <-. split; reflexivity. Qed.
Lemma end_cases :
  (forall a, (2 <= length a)%nat -> check_eof true (a ++ bs "%%EOF" ++ [10]) = Err ENoEOFToken) /\
  find_xref false 0 (bs "startxref 0 %%EOF") 6 [] = (Err EInternalLogic, mk_tst [] []) /\
  (exists file st, has_end false file 99999 /\
     locate (mk_penv file false 0 true (fun _ _ => Err ENoXRef)) 99999 st = (Ok 6, []) /\
     firstn 9 (skipn 1 file) = bs "startxref").
Proof.
  split; [|split; [vm_compute; reflexivity|]].
  - intros a L. unfold check_eof. assert (LN : length (a ++ bs "%%EOF" ++ [10]) = (length a + 6)%nat) by (rewrite !app_length; easy).
    rewrite LN. replace (Nat.ltb (length a + 6) 5) with false by (symmetry; apply Nat.ltb_ge; lia). replace (length a + 6 - 5)%nat with (length a + 1)%nat by lia.
    rewrite skipn_app, skipn_all2 by lia. replace (length a + 1 - length a)%nat with 1%nat by lia. reflexivity.
  - exists (bs " startxref 99999 %%EOF"), (mk_pst [] [] None [] 6 []). split; [|split; vm_compute; reflexivity].
    exists [32], [32], [], 32, []. split; [vm_compute; reflexivity|]. split; [discriminate|]. split; [discriminate|]. split; [repeat constructor|]. split; [lia|].
    split; [|vm_compute; lia]. intros i I [q Q]. do 5 (destruct i as [|i]; [try lia; discriminate|]). cbn in Q. destruct i; discriminate.
Qed.
Lemma trailer_there strict file stm st st' : parse_file strict file stm st = (Ok tt, st') -> exists t, trail st' = Some t.
Proof.
  unfold parse_file. destruct (is_pdf_file file) as [[magic v]|]; [|discriminate].
  set (E := mk_penv file strict magic (at_least_13 v) stm). unfold read_structure.
  destruct (check_eof (pstrict E) (pfile E)) as [last | e | |]; try discriminate.
  destruct (find_xref _ _ _ _ _) as [[off | er | |] s]; try discriminate.
  destruct (run _ _ _ _) as [[u | er | |] st3]; try discriminate.
  destruct (trail st3) as [t|] eqn:T; [|discriminate]. destruct (key_number t (bs "Size") (-1)); try discriminate. intros H. injection H as <-. eauto.
Qed.
