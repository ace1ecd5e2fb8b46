(** Signed files: the pieces *)
From Coq Require Import String Permutation.
From Verif Require Import Base TokModel WriteModel DictProofs TokProofs LexProofs ChainProofs ObjSpec ObjProofs ParseProofs ObjPropLemmas FuelProofs ListModel XrefModel XrefReadProofs ParserModel ParserProofs ParserPropLemmas LitSpec ConformSpec ConformProofs GrammarSpec GrammarProofs GrammarWriteProofs GrammarPropLemmas UpdateModel UpdateSpec UpdateProofs SignModel SignSpec.
Local Open Scope Z_scope.
Local Notation dict := (list (list Z * obj)) (only parsing).

(** ** Loading an object in any spelling *)
Lemma parse_not_endobj body o s : parse default_params body = Ok (Some o, s) -> forall t' s4, next_token 4095 (mk_tst [] body) = Some (t', s4) -> beq (snd t') (bs "endobj") = false.
Proof.
  intros PB t' s4 NB. apply not_true_is_false. intros EO. unfold parse, read_next in PB. change (rbuf default_params) with 4095%nat in PB. rewrite NB in PB.
  apply beq_eq in EO. destruct t' as [ty x]. cbn [snd] in EO. subst x. unfold next_token in NB. cbn [tq tin] in NB.
  destruct (tok 4095 body) as [[tk r]|] eqn:TK; [|discriminate]. injection NB as -> <-.
  apply word_literal in TK; [|cbn; lia]. subst ty. replace (3 * length body + 3)%nat with (S (S (3 * length body + 1))) in PB by lia. discriminate PB.
Qed.
Lemma skip_comment_end b : forall e r, ~ In 10 b -> ~ In 13 b -> e = 10 \/ e = 13 -> skip_comment (b ++ e :: r) = e :: r.
Proof.
  induction b as [|c b IH]; intros e r N1 N2 E; cbn [app skip_comment].
  - replace ((e =? 10) || (e =? 13)) with true by lia. reflexivity.
  - cbn [In] in *. replace ((c =? 10) || (c =? 13)) with false by lia. cbn [negb]. apply IH; tauto.
Qed.
(** after "obj" the reader may have skipped a comment *)
Definition after_obj (y : list Z) : list Z := match y with c :: r => if c =? 37 then skip_comment r else y | [] => [] end.
Lemma tok_obj_any y : halts y -> tok 4095 (bs "obj" ++ y) = Some ((TLit, bs "obj"), after_obj y).
Proof.
  intros H. unfold tok. change (bs "obj" ++ y) with (111 :: 98 :: 106 :: y). change 4095%nat with (S (S (S (S 4091)))). generalize 4091%nat as m. intros m.
  cbn [tok_from]. change (is_ws 111) with false. change (111 =? 37) with false. change ((111 =? 60) || (111 =? 62)) with false.
  change (token_delim 111) with (@None ttype). cbv iota. cbn [Nat.pred lit_rest]. change (98 =? 37) with false. change (106 =? 37) with false.
  change (is_ws 98 || is_delim 98) with false. change (is_ws 106 || is_delim 106) with false. cbv iota.
  destruct y as [|c y]; [reflexivity|]. cbn [halts] in H. cbn [after_obj]. destruct (c =? 37); [reflexivity|]. rewrite H. reflexivity.
Qed.
Lemma tok_obj w x : blank w -> halts (w ++ x) -> (forall r, x <> 37 :: r) ->
  exists w', blank w' /\ tok 4095 (bs "obj" ++ w ++ x) = Some ((TLit, bs "obj"), w' ++ x).
Proof.
  intros B H N. rewrite (tok_obj_any _ H). assert (D : forall y : list Z, (forall r, y <> 37 :: r) -> after_obj y = y).
  { intros [|c y] X; [reflexivity|]. assert (c <> 37) by (intros ->; exact (X y eq_refl)). cbn [after_obj]. replace (c =? 37) with false by lia. reflexivity. }
  inversion B as [E|c v C Bv E|b e v N1 N2 He Bv E]; subst w.
  - exists []. split; [constructor|]. cbn [app] in *. rewrite D by exact N. reflexivity.
  - exists (c :: v). split; [exact B|]. cbn [app]. rewrite D; [reflexivity|]. intros r X. injection X as -> _. cbn in C. lia.
  - exists (e :: v). split; [apply blank_white; [cbn; destruct He as [->| ->]; tauto|exact Bv]|]. cbn [app]. rewrite <- app_assoc. cbn [app after_obj]. change (37 =? 37) with true. cbv iota.
    rewrite skip_comment_end by assumption. reflexivity.
Qed.
Lemma spelled_start P t o : spelled P t o -> exists c x, t = c :: x /\ c <> 37.
Proof.
  intros H. destruct H as [| | |s f ds M N D _ _|s f ds fs M N D F _|t n _ _|l _ _ _|t ds s _ _|a b w v _ N D _ _ _ _ _ _ _ _ _ _|t l _|t e d _ _ _ _];
    try (eexists; eexists; split; [reflexivity|discriminate]).
  - destruct M as [[-> _]|[-> _]]; [|eexists; eexists; split; [reflexivity|discriminate]].
    destruct ds as [|c ds]; [congruence|]. eexists; eexists; split; [reflexivity|]. apply Forall_inv in D. unfold digit in D. lia.
  - destruct M as [[-> _]|[-> _]]; [|eexists; eexists; split; [reflexivity|discriminate]].
    destruct ds as [|c ds]; [eexists; eexists; split; [reflexivity|discriminate]|]. eexists; eexists; split; [reflexivity|]. apply Forall_inv in D. unfold digit in D. lia.
  - destruct a as [|c a]; [congruence|]. eexists; eexists; split; [reflexivity|]. apply Forall_inv in D. unfold digit in D. lia.
Qed.
Lemma load_stands file off r o : stands_at file off r o -> load_object file off = Ok (r, o, false).
Proof.
  intros (w & t & b & k & S0 & Sp & D & Bw & SEP & Bb & NB & NC & Hk & OF & N & G). destruct r as [n g]. cbn [fst snd] in *.
  unfold load_object. rewrite S0. set (tail := t ++ b ++ bs "endobj" ++ k).
  replace (dec n ++ [32] ++ dec g ++ bs " obj" ++ w ++ tail) with (dec n ++ 32 :: dec g ++ 32 :: bs "obj" ++ w ++ tail)
    by (change (bs " obj") with (32 :: bs "obj"); repeat first [rewrite <- app_assoc | progress cbn [app]]; reflexivity).
  destruct (ParserPropLemmas.dec_tok n (32 :: dec g ++ 32 :: bs "obj" ++ w ++ tail) ltac:(lia) ltac:(left; easy)) as [T1 V1].
  destruct (ParserPropLemmas.dec_tok g (32 :: bs "obj" ++ w ++ tail) ltac:(lia) ltac:(left; easy)) as [T2 V2].
  rewrite (next_number_in 4095 TLit (dec n) _ _ n T1 V1).
  rewrite (next_number_in 4095 TLit (dec g) _ (32 :: bs "obj" ++ w ++ tail) g); [|rewrite tok_ws by easy; exact T2|exact V2].
  destruct (spelled_start _ _ _ Sp) as (c0 & x0 & Et & Ec).
  assert (H : halts (w ++ tail)).
  { apply (halts_of (bs "obj")); [right; exists [111; 98], 106; split; [reflexivity|apply plain_iff; reflexivity]|].
    assert (E : w ++ tail = (w ++ t) ++ b ++ bs "endobj" ++ k) by (unfold tail; rewrite <- app_assoc; reflexivity). rewrite E.
    destruct (w ++ t) as [|d x] eqn:E'; [|exact SEP]. exfalso. apply app_eq_nil in E'. destruct E' as [_ E']. rewrite E' in Et. discriminate. }
  destruct (tok_obj w tail Bw H) as (w' & Bw' & TK); [intros r X; unfold tail in X; rewrite Et in X; injection X as -> _; congruence|].
  unfold next_token at 1. cbn [tq tin]. rewrite tok_ws by easy. rewrite TK. cbn [snd]. rewrite beq_refl. cbn [tin].
  destruct (before_word w' t o b (bs "endobj") k Bw' Sp D Bb NB NC ltac:(left; reflexivity) (or_intror Hk)) as (s & s' & PB & NT & _). fold tail in PB.
  pose proof (parse_not_endobj _ _ _ PB) as NE. unfold parse, read_next in PB. change (rbuf default_params) with 4095%nat in PB.
  destruct (next_token 4095 (mk_tst [] (w' ++ tail))) as [[t' s4]|] eqn:NX; [|discriminate]. rewrite (NE t' s4 eq_refl).
  rewrite PB. cbn [bind]. rewrite NT. cbn [snd]. rewrite beq_refl.
  replace (u32 n) with n by (unfold u32; symmetry; apply Z.mod_small; exact N). replace (u16 g) with g by (unfold u16; symmetry; apply Z.mod_small; exact G). reflexivity.
Qed.

(** ** The signature dictionary, piece by piece *)
Definition imap {A B} (i : A -> B) (d : list (list Z * A)) : list (list Z * B) := map (fun p => (fst p, i (snd p))) d.
Lemma imap_id (d : dict) : imap (fun o => o) d = d.
Proof. unfold imap. induction d as [|[k v] d IH]; [reflexivity|]. cbn [map fst snd]. rewrite IH. reflexivity. Qed.
Lemma imap_app {A B} (i : A -> B) a b : imap i (a ++ b) = imap i a ++ imap i b.
Proof. apply map_app. Qed.
Lemma add_split {A} k (d : list (list Z * A)) : exists X Y, forall B (i : A -> B) v, dict_add k v (imap i d) = imap i X ++ (k, v) :: imap i Y.
Proof.
  induction d as [|[k' v'] d (X & Y & IH)]; [exists [], []; reflexivity|]. destruct (beq k k') eqn:E.
  - exists [], d. intros B i v. cbn [imap map fst snd dict_add]. rewrite E. apply beq_eq in E. subst k'. reflexivity.
  - destruct (bytes_lt k k') eqn:L.
    + exists [], ((k', v') :: d). intros B i v. cbn [imap map fst snd dict_add]. rewrite E, L. reflexivity.
    + exists ((k', v') :: X), Y. intros B i v. cbn [imap map fst snd dict_add app]. rewrite E, L. unfold imap in IH. rewrite IH. reflexivity.
Qed.
Lemma add_before {A} k c (v w : A) l r : beq k c = false -> bytes_lt k c = true ->
  dict_add k v (l ++ (c, w) :: r) = dict_add k v l ++ (c, w) :: r.
Proof.
  intros E L. induction l as [|[k' v'] l IH]; cbn [app dict_add]; [rewrite E, L; reflexivity|].
  destruct (beq k k'); [reflexivity|]. destruct (bytes_lt k k'); [reflexivity|]. rewrite IH. reflexivity.
Qed.
Lemma filter_imap {A B} (i : A -> B) f (d : list (list Z * A)) : filter (fun p => f (fst p)) (imap i d) = imap i (filter (fun p => f (fst p)) d).
Proof. unfold imap. induction d as [|[k v] d IH]; [reflexivity|]. cbn [map filter fst snd]. rewrite IH. destruct (f k); reflexivity. Qed.
Definition type_order {A} (d : list (list Z * A)) : list (list Z * A) :=
  filter (fun p => beq (fst p) (bs "Type")) d ++ filter (fun p => negb (beq (fst p) (bs "Type"))) d.
Lemma two_split (e : dict) : exists X Y Z0, forall B (i : obj -> B) v w,
  type_order (dict_add (bs "ByteRange") v (dict_add (bs "Contents") w (imap i e))) =
  imap i X ++ (bs "ByteRange", v) :: imap i Y ++ (bs "Contents", w) :: imap i Z0.
Proof.
  destruct (add_split (bs "Contents") e) as (X1 & Z1 & E1). destruct (add_split (bs "ByteRange") X1) as (X2 & Y2 & E2).
  pose (ty := fun p : list Z * obj => beq (fst p) (bs "Type")). pose (nt := fun p : list Z * obj => negb (beq (fst p) (bs "Type"))).
  exists (filter ty X2 ++ filter ty Y2 ++ filter ty Z1 ++ filter nt X2), (filter nt Y2), (filter nt Z1).
  intros B i v w. rewrite E1, add_before by reflexivity. rewrite E2. unfold type_order. rewrite !filter_app. cbn [filter app fst].
  change (beq (bs "ByteRange") (bs "Type")) with false. change (beq (bs "Contents") (bs "Type")) with false. cbn [negb].
  rewrite !imap_app. unfold ty, nt. rewrite !(filter_imap i (fun k => beq k (bs "Type"))), !(filter_imap i (fun k => negb (beq k (bs "Type")))).
  rewrite <- !app_assoc. reflexivity.
Qed.

Lemma put_pairs_objs fl X : forall pos, put_pairs fl pos (imap SObj X) = do x <- pairs_text fl X; Ok (x, []).
Proof.
  induction X as [|[k v] X IH]; intros pos; [reflexivity|]. cbn [imap map fst snd put_pairs pairs_text put_value].
  destruct (write_name k) as [n| | |]; try reflexivity. cbn [bind]. destruct (write fl v) as [a| | |]; try reflexivity. cbn [bind].
  unfold imap in IH. rewrite IH. destruct (pairs_text fl X) as [b| | |]; try reflexivity. cbn [bind app]. unfold sp, nl. rewrite <- !app_assoc. reflexivity.
Qed.
Lemma put_pairs_app fl a : forall b pos, put_pairs fl pos (a ++ b) =
  do (x, m) <- put_pairs fl pos a; do (y, m') <- put_pairs fl (pos + Z.of_nat (length x)) b; Ok (x ++ y, m ++ m').
Proof.
  induction a as [|[k v] a IH]; intros b pos.
  - cbn [app put_pairs bind length]. rewrite Z.add_0_r. destruct (put_pairs fl pos b) as [[y m]| | |]; reflexivity.
  - cbn [app put_pairs]. destruct (write_name k) as [n| | |]; try reflexivity. cbn [bind].
    destruct (put_value fl _ v) as [[t m]| | |]; try reflexivity. cbn [bind]. rewrite IH.
    destruct (put_pairs fl _ a) as [[x ms]| | |]; try reflexivity. cbn [bind].
    rewrite !app_length, !Nat2Z.inj_add, !Z.add_assoc. destruct (put_pairs fl _ b) as [[y m']| | |]; try reflexivity. cbn [bind]. rewrite <- !app_assoc. reflexivity.
Qed.
Lemma range_name : write_name (bs "ByteRange") = Ok (bs "/ByteRange"). Proof. reflexivity. Qed.
Lemma contents_name : write_name (bs "Contents") = Ok (bs "/Contents"). Proof. reflexivity. Qed.

Definition object_head (fl : wflags) (tight : bool) (r : ref) : list Z :=
  dec (fst r) ++ [32] ++ dec (snd r) ++ bs " obj" ++ (if tight then [] else [10]).
Definition dict_open (fl : wflags) : list Z := if wclean fl then [60; 60; 10] else [60; 60].
Definition object_end : list Z := [10] ++ bs "endobj" ++ [10].
(** the text of the dictionary with texts for the two values *)
Definition filled (fl : wflags) (tx ty tz a c : list Z) : list Z :=
  tx ++ bs "/ByteRange" ++ sp fl ++ a ++ nl fl ++ ty ++ bs "/Contents" ++ sp fl ++ c ++ nl fl ++ tz.

Lemma len_app {A} (a b : list A) : Z.of_nat (length (a ++ b)) = Z.of_nat (length a) + Z.of_nat (length b).
Proof. rewrite app_length. lia. Qed.

(** the three groups of other entries *)
Definition groups (e X Y Z0 : dict) : Prop := forall B (i : obj -> B) v w,
  type_order (dict_add (bs "ByteRange") v (dict_add (bs "Contents") w (imap i e))) =
  imap i X ++ (bs "ByteRange", v) :: imap i Y ++ (bs "Contents", w) :: imap i Z0.

Lemma signature_text fl tight pos r e X Y Z0 tx ty tz n : groups e X Y Z0 ->
  pairs_text fl X = Ok tx -> pairs_text fl Y = Ok ty -> pairs_text fl Z0 = Ok tz ->
  let h := object_head fl tight r ++ dict_open fl in
  put_signature fl tight pos r (dict_add (bs "ByteRange") (SData false range_beacon) (dict_add (bs "Contents") (SData true (contents_beacon n)) (imap SObj e))) =
  Ok (h ++ filled fl tx ty tz range_beacon (contents_beacon n) ++ [62; 62] ++ object_end,
      [(false, pos + Z.of_nat (length (h ++ tx ++ bs "/ByteRange" ++ sp fl)));
       (true, pos + Z.of_nat (length (h ++ tx ++ bs "/ByteRange" ++ sp fl ++ range_beacon ++ nl fl ++ ty ++ bs "/Contents" ++ sp fl)))]).
Proof.
  intros G EX EY EZ h. unfold put_signature, put_dict. fold (object_head fl tight r). fold (dict_open fl).
  change (type_pairs ?d) with (type_order d). rewrite G. rewrite put_pairs_app, put_pairs_objs, EX. cbn [bind app].
  cbn [put_pairs]. rewrite range_name. cbn [bind put_value]. rewrite put_pairs_app, put_pairs_objs, EY. cbn [bind app].
  cbn [put_pairs]. rewrite contents_name. cbn [bind put_value]. rewrite put_pairs_objs, EZ. cbn [bind app].
  fold (sp fl) (nl fl). f_equal. f_equal.
  - unfold filled, h, object_end. rewrite <- !app_assoc. reflexivity.
  - unfold h. f_equal; [|f_equal]; (f_equal; repeat rewrite len_app; lia).
Qed.

(** the same dictionary with objects for the two values *)
Lemma type_order_first (d : dict) : type_order d = type_first d. Proof. reflexivity. Qed.
Lemma object_filled fl tight r e X Y Z0 tx ty tz v w a c : groups e X Y Z0 ->
  pairs_text fl X = Ok tx -> pairs_text fl Y = Ok ty -> pairs_text fl Z0 = Ok tz -> write fl v = Ok a -> write fl w = Ok c ->
  let d := dict_add (bs "ByteRange") v (dict_add (bs "Contents") w e) in
  wf_obj default_params (ODict d) ->
  obj_text fl tight r (ODict d) = Ok ((object_head fl tight r ++ dict_open fl) ++ filled fl tx ty tz a c ++ [62; 62] ++ object_end).
Proof.
  intros G EX EY EZ EV EW d W. unfold obj_text. destruct (write_total default_params fl _ W) as [t WT]. rewrite WT. cbn [bind].
  destruct (write_dict fl d t) as (x & PX & ->); [exact (proj1 W)|exact WT|].
  specialize (G obj (fun o => o) v w). rewrite !imap_id in G. fold d in G. rewrite type_order_first in G. rewrite G in PX.
  rewrite pairs_text_app, EX in PX. cbn [bind pairs_text] in PX. rewrite range_name, EV in PX. cbn [bind] in PX. rewrite pairs_text_app, EY in PX.
  cbn [bind pairs_text] in PX. rewrite contents_name, EW, EZ in PX. cbn [bind] in PX. apply ok_inj in PX. subst x.
  f_equal. unfold object_head, dict_open, filled, object_end. rewrite <- !app_assoc. reflexivity.
Qed.

(** ** The signed dictionary is a spelling *)
Lemma separate_more t r0 r : separate t r0 -> begins r -> separate t (r0 ++ r).
Proof. destruct r0 as [|d r0]; [intros _; apply begins_separate|auto]. Qed.
Lemma row_app P x l : row P x l -> forall r l', row P r l' -> begins r -> row P (x ++ r) (l ++ l').
Proof.
  induction 1 as [w B|w t o r0 l B Sp SE R IH]; intros r l' Rr Br; cbn [app].
  - apply row_blank; assumption.
  - rewrite <- !app_assoc. constructor; auto using separate_more.
Qed.
Lemma slash_begins r : begins (47 :: r). Proof. apply special_begins; [cbn; tauto|discriminate]. Qed.
Lemma groups_perm e X Y Z0 : groups e X Y Z0 -> forall v w : obj,
  Permutation (X ++ (bs "ByteRange", v) :: Y ++ (bs "Contents", w) :: Z0) (dict_add (bs "ByteRange") v (dict_add (bs "Contents") w e)).
Proof. intros G v w. specialize (G obj (fun o => o) v w). rewrite !imap_id in G. rewrite <- G. rewrite type_order_first. apply type_first_perm. Qed.

Definition pair_good (p : list Z * obj) : Prop := name_ok 4095 (fst p) /\ wf_obj default_params (snd p).
Lemma wf_pairs d : wf_obj default_params (ODict d) <-> sorted d /\ Forall pair_good d.
Proof.
  cbn [wf_obj]. change (rbuf default_params) with 4095%nat. split; intros [A B]; (split; [exact A|]); clear A.
  - induction d as [|[k v] d IH]; constructor; [exact (proj1 B)|exact (IH (proj2 B))].
  - induction B as [|[k v] d H B IH]; [exact I|]. split; [exact H|exact IH].
Qed.
Lemma group_row fl X tx : flags_ok fl -> Forall pair_good X -> pairs_text fl X = Ok tx ->
  row default_params tx (flat_map (fun p => [OName (fst p); snd p]) X) /\ begins (nl fl ++ tx).
Proof.
  intros F G E. apply (pairs_wgood default_params buf20 fl F); [|exact E]. eapply Forall_impl; [|exact G]. intros p [A B]. split; [exact A|].
  intros t. apply (write_wgood default_params buf20 fl F). exact B.
Qed.
Lemma name_row k x : name_spelled x k -> (length x <= 4095)%nat -> spelled default_params (47 :: x) (OName k).
Proof. intros. apply sp_name; assumption. Qed.
Lemma word_name x : forallb (fun c => is_regular c && negb (c =? 35)) x = true -> name_spelled x x.
Proof.
  induction x as [|c x IH]; intros H; [constructor|]. cbn [forallb] in H. apply andb_true_iff in H. destruct H as [H1 H2].
  apply andb_true_iff in H1. destruct H1 as [H0 H1]. apply name_char; [apply plain_iff; exact H0|lia|apply IH; exact H2].
Qed.
Lemma filled_row fl X Y Z0 tx ty tz w1 a1 v s1 w2 c1 w : flags_ok fl -> Forall pair_good X -> Forall pair_good Y -> Forall pair_good Z0 ->
  pairs_text fl X = Ok tx -> pairs_text fl Y = Ok ty -> pairs_text fl Z0 = Ok tz ->
  Forall white w1 -> spelled default_params a1 v -> Forall white s1 -> Forall white w2 -> spelled default_params c1 w ->
  begins (sp fl ++ w1 ++ a1) -> begins (sp fl ++ w2 ++ c1) ->
  row default_params (filled fl tx ty tz (w1 ++ a1 ++ s1) (w2 ++ c1)) (flat_map (fun p => [OName (fst p); snd p]) (X ++ (bs "ByteRange", v) :: Y ++ (bs "Contents", w) :: Z0)).
Proof.
  intros F GX GY GZ EX EY EZ W1 SA S1 W2 SC B1 B2. unfold filled. rewrite flat_map_app. destruct (group_row fl X tx F GX EX) as [RX _].
  destruct (group_row fl Y ty F GY EY) as [RY BY]. destruct (group_row fl Z0 tz F GZ EZ) as [RZ BZ].
  assert (WS : Forall white (sp fl) /\ Forall white (nl fl)) by (destruct (sep_white fl 0) as (_ & A & B); auto). destruct WS as [WS WN].
  assert (MORE : forall x y, begins (sp fl ++ x) -> x <> [] -> begins (sp fl ++ x ++ y)).
  { intros x y B N. destruct (sp fl) as [|c q]; [|exact B]. destruct x; [congruence|exact B]. }
  apply row_app; [exact RX| |apply slash_begins].
  cbn [flat_map fst snd app]. rewrite flat_map_app. cbn [flat_map fst snd app].
  apply (row_cons _ [] (bs "/ByteRange")); [constructor|apply name_row; [apply word_name; reflexivity|apply Nat.leb_le; reflexivity]| |].
  { apply begins_separate. destruct (spelled_start _ _ _ SA) as (c0 & x0 & -> & _). rewrite <- !app_assoc. rewrite (app_assoc w1). apply MORE; [exact B1|]. destruct w1; discriminate. }
  apply row_blank; [apply white_blank; exact WS|]. rewrite <- !app_assoc.
  apply row_cons; [apply white_blank; exact W1|exact SA| |].
  { apply begins_separate. rewrite app_assoc. destruct (s1 ++ nl fl) as [|c q] eqn:E; [|apply white_begins; assert (FW : Forall white (c :: q)) by (rewrite <- E; apply Forall_app; auto); exact (Forall_inv FW)].
    cbn [app]. assert (NN : nl fl = []) by (destruct s1; [exact E|discriminate]). rewrite NN in BY. cbn [app] in BY.
    destruct ty as [|d ty]; [apply slash_begins|exact BY]. }
  apply row_blank; [apply white_blank; exact S1|]. apply row_blank; [apply white_blank; exact WN|].
  apply row_app; [exact RY| |apply slash_begins].
  apply (row_cons _ [] (bs "/Contents")); [constructor|apply name_row; [apply word_name; reflexivity|apply Nat.leb_le; reflexivity]| |].
  { apply begins_separate. destruct (spelled_start _ _ _ SC) as (c0 & x0 & -> & _). rewrite (app_assoc w2). apply MORE; [exact B2|]. destruct w2; discriminate. }
  apply row_blank; [apply white_blank; exact WS|].
  apply row_cons; [apply white_blank; exact W2|exact SC| |].
  { apply begins_separate. exact BZ. }
  apply row_blank; [apply white_blank; exact WN|]. exact RZ.
Qed.

(** ** Writing into the file *)
Lemma write_at_inside A b R t : (length t <= length b)%nat ->
  write_at (Z.of_nat (length A)) t (A ++ b ++ R) = A ++ (t ++ skipn (length t) b) ++ R.
Proof.
  intros L. unfold write_at. rewrite Nat2Z.id, firstn_app, Nat.sub_diag, firstn_all. cbn [firstn]. rewrite app_nil_r.
  rewrite skipn_app. rewrite (skipn_all2 A) by lia. replace (length A + length t - length A)%nat with (length t) by lia. cbn [app].
  rewrite skipn_app. replace (length t - length b)%nat with O by lia. cbn [skipn]. rewrite <- app_assoc. reflexivity.
Qed.
Lemma dec_short z : 0 <= z < 10 ^ 10 -> (length (dec z) <= 10)%nat.
Proof. intros H. apply dec_len; [exact H|lia]. Qed.
Definition range_text (o p q : Z) : list Z := [91; 32] ++ dec 0 ++ [32] ++ dec o ++ [32] ++ dec p ++ [32] ++ dec q ++ [93].
Lemma range_written o p q : 0 <= o -> 0 <= p -> 0 <= q -> write no_flags (OArr [ONum 0; ONum o; ONum p; ONum q]) = Ok (range_text o p q).
Proof.
  intros A B C. rewrite write_arr. cbn [arr_text write bind wclean wnoinline no_flags lead app]. unfold dec_signed.
  change (0 <? 0) with false. replace (o <? 0) with false by lia. replace (p <? 0) with false by lia. replace (q <? 0) with false by lia. cbv iota.
  unfold range_text, lead, no_flags, arr_sep. cbn [wclean wnoinline app bind]. repeat rewrite <- app_assoc. cbn [app]. rewrite app_nil_r.
  repeat (rewrite <- ?app_assoc; cbn [app]). reflexivity.
Qed.
Lemma range_len o p q : 0 <= o < 10 ^ 10 -> 0 <= p < 10 ^ 10 -> 0 <= q < 10 ^ 10 -> (length (range_text o p q) <= 37)%nat.
Proof.
  intros A B C. pose proof (dec_short o A). pose proof (dec_short p B). pose proof (dec_short q C). unfold range_text. rewrite !app_length.
  change (length (dec 0)) with 1%nat. cbn [length]. lia.
Qed.
Lemma range_spelled o p q : 0 <= o < 10 ^ 10 -> 0 <= p < 10 ^ 10 -> 0 <= q < 10 ^ 10 ->
  spelled default_params (range_text o p q) (OArr [ONum 0; ONum o; ONum p; ONum q]).
Proof.
  intros A B C. assert (F : flags_ok no_flags) by (right; reflexivity).
  destruct (write_wgood default_params buf20 no_flags F (OArr [ONum 0; ONum o; ONum p; ONum q])) with (t := range_text o p q) as [(w & t & E & W & Sp) _].
  - cbn [wf_obj]. unfold int64_ok. repeat split; lia.
  - apply range_written; lia.
  - destruct w as [|c w]; [cbn [app] in E; rewrite E; exact Sp|]. exfalso. unfold range_text in E. injection E as E _. apply Forall_inv in W. rewrite <- E in W. cbn in W. lia.
Qed.

(** ** What is given to the signer *)
Lemma firstn_more {A} a b (l : list A) : firstn (a + b) l = firstn a l ++ firstn b (skipn a l).
Proof. revert l. induction a as [|a IH]; intros [|x l]; cbn [Nat.add firstn skipn app]; auto; [destruct b; reflexivity|]. rewrite IH. reflexivity. Qed.
Lemma skipn_more {A} a b (l : list A) : skipn b (skipn a l) = skipn (a + b) l.
Proof. revert l. induction a as [|a IH]; intros [|x l]; cbn [Nat.add skipn]; auto. destruct b; reflexivity. Qed.
Section Parts.
Variables (F : list Z) (coff clen size : Z).
Hypothesis H0 : 0 <= coff.
Hypothesis H1 : 0 < clen.
Hypothesis H2 : coff + clen <= Z.of_nat (length F).
Hypothesis HS : 0 < size.
Definition unread (pos : Z) : list Z :=
  firstn (Z.to_nat (coff - pos)) (skipn (Z.to_nat pos) F) ++ skipn (Z.to_nat (Z.max pos (coff + clen))) F.
Definition place_ok (pos : Z) : Prop := 0 <= pos <= coff \/ coff + clen <= pos <= Z.of_nat (length F).
Lemma unread_len pos : place_ok pos -> Z.of_nat (length (unread pos)) = Z.max 0 (coff - pos) + (Z.of_nat (length F) - Z.max pos (coff + clen)).
Proof. intros P. unfold place_ok in P. unfold unread. rewrite app_length, firstn_length, !skipn_length. lia. Qed.
Lemma part_step pos : place_ok pos -> let (b, pos') := read_part F coff clen size pos in
  place_ok pos' /\ unread pos = b ++ unread pos' /\ (b = [] -> unread pos = []) /\ Z.of_nat (length b) <= size.
Proof.
  intros P. unfold place_ok in P. unfold read_part. destruct (pos =? Z.of_nat (length F)) eqn:E0.
  - assert (EP : unread pos = []). { pose proof (unread_len pos P) as L. destruct (unread pos); [reflexivity|cbn [length] in L; lia]. }
    split; [exact P|]. rewrite EP. cbn [length]. repeat split; auto; lia.
  - destruct (pos <? coff) eqn:E1.
    + set (n1 := Z.min size (coff - pos)). destruct ((0 <? n1) && (size - n1 =? 0)) eqn:E2.
      * assert (E : unread pos = firstn (Z.to_nat n1) (skipn (Z.to_nat pos) F) ++ unread (pos + n1)).
        { unfold unread. replace (Z.to_nat (coff - pos)) with (Z.to_nat n1 + Z.to_nat (coff - (pos + n1)))%nat by lia. rewrite firstn_more, <- app_assoc, skipn_more.
          replace (Z.to_nat pos + Z.to_nat n1)%nat with (Z.to_nat (pos + n1)) by lia. replace (Z.max pos (coff + clen)) with (Z.max (pos + n1) (coff + clen)) by lia. reflexivity. }
        split; [left; lia|]. split; [exact E|]. split.
        -- intros X. assert (L : length (firstn (Z.to_nat n1) (skipn (Z.to_nat pos) F)) = O) by (rewrite X; reflexivity). rewrite firstn_length, skipn_length in L. lia.
        -- rewrite firstn_length, skipn_length. lia.
      * assert (N1 : n1 = coff - pos) by lia. replace ((coff <=? pos + n1) && (pos <? coff + clen)) with true by lia. cbv zeta.
        set (n2 := Z.min (size - n1) (Z.of_nat (length F) - (coff + clen))).
        assert (E : unread pos = firstn (Z.to_nat n1) (skipn (Z.to_nat pos) F) ++ firstn (Z.to_nat n2) (skipn (Z.to_nat (coff + clen)) F) ++ unread (coff + clen + n2)).
        { unfold unread at 1. rewrite <- N1. f_equal. replace (Z.max pos (coff + clen)) with (coff + clen) by lia. unfold unread.
          replace (Z.to_nat (coff - (coff + clen + n2))) with O by lia. cbn [firstn app].
          rewrite <- (firstn_skipn (Z.to_nat n2) (skipn (Z.to_nat (coff + clen)) F)) at 1. f_equal. rewrite skipn_more. f_equal. lia. }
        assert (NE : firstn (Z.to_nat n1) (skipn (Z.to_nat pos) F) <> []).
        { intros X. assert (L : length (firstn (Z.to_nat n1) (skipn (Z.to_nat pos) F)) = O) by (rewrite X; reflexivity). rewrite firstn_length, skipn_length in L. lia. }
        destruct (n2 =? 0) eqn:E3.
        -- assert (Z2 : n2 = 0) by lia. rewrite Z2 in E. cbn [Z.to_nat firstn app] in E. rewrite Z.add_0_r in E. split; [right; lia|]. split; [exact E|].
           split; [intros X; congruence|]. rewrite firstn_length, skipn_length. lia.
        -- split; [right; lia|]. split; [rewrite <- app_assoc; exact E|]. split; [intros X; apply app_eq_nil in X; tauto|]. rewrite app_length, !firstn_length, !skipn_length. lia.
    + cbv zeta. replace ((0 <? 0) && (size - 0 =? 0)) with false by lia. rewrite !Z.add_0_r, Z.sub_0_r.
      set (p2 := if (coff <=? pos) && (pos <? coff + clen) then coff + clen else pos).
      assert (P2 : p2 = Z.max pos (coff + clen)) by (unfold p2; destruct ((coff <=? pos) && (pos <? coff + clen)) eqn:E; lia).
      set (n2 := Z.min size (Z.of_nat (length F) - p2)). change (Z.to_nat 0) with O. cbn [firstn app].
      assert (E : unread pos = firstn (Z.to_nat n2) (skipn (Z.to_nat p2) F) ++ unread (p2 + n2)).
      { unfold unread. replace (Z.to_nat (coff - pos)) with O by lia. replace (Z.to_nat (coff - (p2 + n2))) with O by lia. cbn [firstn app].
        rewrite <- P2. rewrite <- (firstn_skipn (Z.to_nat n2) (skipn (Z.to_nat p2) F)) at 1. f_equal. rewrite skipn_more. f_equal. lia. }
      destruct (n2 =? 0) eqn:E3.
      * assert (Z2 : n2 = 0) by lia. assert (EP : unread pos = []). { pose proof (unread_len pos P) as L. destruct (unread pos); [reflexivity|cbn [length] in L; lia]. }
        split; [right; lia|]. split; [cbn [app]; rewrite EP; symmetry; pose proof (unread_len p2 ltac:(right; lia)) as L; destruct (unread p2); [reflexivity|cbn [length] in L; lia]|].
        split; [intros _; exact EP|cbn [length]; lia].
      * split; [right; lia|]. split; [exact E|]. split.
        -- intros X. assert (L : length (firstn (Z.to_nat n2) (skipn (Z.to_nat p2) F)) = O) by (rewrite X; reflexivity). rewrite firstn_length, skipn_length in L. lia.
        -- rewrite firstn_length, skipn_length. lia.
Qed.
Lemma parts_read fuel : forall pos, place_ok pos -> (length (unread pos) < fuel)%nat ->
  exists parts, read_parts fuel F coff clen size pos = Ok parts /\ concat parts = unread pos /\ Forall (fun b => b <> [] /\ Z.of_nat (length b) <= size) parts.
Proof.
  induction fuel as [|f IH]; intros pos P L; [lia|]. cbn [read_parts]. pose proof (part_step pos P) as S0.
  destruct (read_part F coff clen size pos) as [b pos']. destruct S0 as (P' & E & N & LE). destruct b as [|c b].
  - exists []. rewrite (N eq_refl). auto.
  - destruct (IH pos' P') as (parts & RP & CC & FA); [rewrite E, app_length in L; cbn [length] in L; lia|]. rewrite RP. cbn [bind].
    exists ((c :: b) :: parts). split; [reflexivity|]. split; [cbn [concat]; rewrite CC, <- E; reflexivity|]. constructor; [split; [discriminate|exact LE]|exact FA].
Qed.
End Parts.
