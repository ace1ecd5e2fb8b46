(** Signed files are read back *)
From Coq Require Import String Permutation.
From Verif Require Import Base TokModel WriteModel DictProofs TokProofs LexProofs ChainProofs ObjSpec ObjProofs ParseProofs ObjPropLemmas UtilModel ListModel ListProofs XrefModel XrefSpec XrefProofs XrefReadProofs XrefPropLemmas ParserModel ParserSpec ParserProofs ParserPropLemmas LitSpec ConformSpec ConformProofs GrammarSpec GrammarProofs GrammarWriteProofs GrammarPropLemmas UpdateModel UpdateSpec UpdateProofs UpdatePropLemmas SignModel SignSpec SignProofs SignPropLemmas.
Local Open Scope Z_scope.
Local Notation dict := (list (list Z * obj)) (only parsing).

(** ** What is read when the texts of the objects are replaced by others of the same total length *)
Lemma after_close fl tight inc file objs frees old prev id v l stm stm' body adds body' F : options_ok fl tight -> saveable objs frees -> trailer_parts old prev id ->
  (inc = true \/ objs <> [] \/ frees <> []) -> has_header file v -> (length (changed inc objs frees) < 511)%nat ->
  let E := mk_penv file false 0 (at_least_13 (get_version v)) stm in
  Forall (present E) l -> NoDup (map coff l) -> (l = [] /\ prev = 0 \/ exists x l', l = x :: l' /\ prev = coff x /\ 0 < coff x /\ closed l l) ->
  (forall y, In y l -> 2 * S (length l) + cneed y <= 256)%nat -> (length l <= 126)%nat ->
  (forall y d, In y l -> stm' d (coff y) = stm d (coff y)) ->
  put_objects fl tight inc (Z.of_nat (length file)) objs = Ok (body, adds) -> length body' = length body ->
  close_file fl inc file body' (all_adds adds frees) old prev id = Ok F -> Z.of_nat (length F) < 10 ^ 10 ->
  exists rest st t, F = file ++ body' ++ rest /\ addable (all_adds adds frees) /\
    parse_file false F stm' new_parser = (Ok tt, st) /\ trail st = Some t /\
    dict_get (bs "Size") t = Some (ONum (xref_size (add_objects (all_adds adds frees)))) /\ dict_get (bs "ID") t = Some (OArr id) /\
    (forall k, In k [bs "Root"; bs "Info"] -> dict_get k t = match dict_get k old with Some w => Some w | None => newest_key k l end) /\
    (forall n r, 1 <= n -> (look (ents st) n = Some r <->
       ((exists e, due (all_adds adds frees) n e /\ r = as_read 0 e) \/ (~ In n (changed inc objs frees) /\ newest E l n r)))) /\
    (forall r, look (ents st) 0 = Some r -> (exists m, r = RFree m 65535) \/ newest E l 0 r).
Proof.
  intros OK SV TP NE HD CH E PR ND LK DP LN ST PO LB CF LF.
  assert (NF : file <> []) by (destruct HD as (_ & r & ->); discriminate).
  destruct (close_split _ _ _ _ _ _ _ _ _ CF) as (tail & EF & CL0). pose proof (CL0 body ltac:(symmetry; exact LB)) as CB.
  assert (SAVE : save fl tight inc file objs frees old prev id = Ok (file ++ body ++ tail)) by (rewrite save_close, PO; exact CB).
  assert (LF0 : Z.of_nat (length (file ++ body ++ tail)) < 10 ^ 10) by (rewrite EF in LF; rewrite !app_length in *; lia).
  destruct (save_section fl tight inc file objs frees old prev id _ OK SV NE SAVE LF0 NF) as (body1 & adds1 & secs & PO1 & XS & AD & W & H1 & H0 & LM & P).
  rewrite PO in PO1. apply ok_inj in PO1. pose proof (f_equal fst PO1) as X1. pose proof (f_equal snd PO1) as X2. cbn [fst snd] in X1, X2. subst body1 adds1. clear PO1 P.
  set (tr := fill_trailer old (xref_size (add_objects (all_adds adds frees))) prev id) in *.
  set (new := mk_csec (Z.of_nat (length file) + Z.of_nat (length body')) tr secs false) in *.
  destruct (trailer_good old (xref_size (add_objects (all_adds adds frees))) prev id TP (size_bound _ AD)) as [WF IN]. fold tr in WF, IN.
  pose proof (few_sections fl tight inc _ objs frees body adds secs PO W H1) as FS.
  set (E' := mk_penv F false 0 (at_least_13 (get_version v)) stm') in *.
  unfold close_file in CF. rewrite XS in CF. cbn [bind] in CF. fold tr in CF. apply bind_ok in CF. destruct CF as (t0 & WT & CF). apply ok_inj in CF.
  set (off := Z.of_nat (length file) + Z.of_nat (length body')) in *.
  assert (HE : has_end false F (coff new)).
  { exists (file ++ body' ++ table_text secs ++ bs "trailer" ++ [10] ++ t0 ++ [10]), [10], [], 10, [10]. cbn [coff new].
    split; [rewrite <- CF; rewrite <- !app_assoc; easy|].
    split; [destruct file; [easy|discriminate]|]. split; [discriminate|]. split; [repeat constructor|].
    assert (OB : 0 <= off < 10 ^ 10) by (rewrite EF in LF; rewrite !app_length in LF; unfold off; lia).
    split; [lia|]. split.
    + intros i I [q Q]. do 6 (destruct i as [|i]; [try lia; discriminate|]). cbn in Q. destruct i; discriminate.
    + pose proof (dec_len off 10 ltac:(lia) ltac:(lia)) as DL. rewrite !app_length. change (length (bs "startxref")) with 9%nat. cbn [length]. lia. }
  assert (PN : present E' new).
  { split; [cbn [coff new E' pfile]; rewrite EF, !app_length; unfold off; lia|]. split; [exact W|]. split; [exact WF|]. cbn [cstream csecs cdict new E' pmagic pfile coff].
    destruct OK as [FL TG]. split; [exact LM|]. split; [lia|]. split; [apply fill_trailer_facts|].
    exists fl, t0, ([10] ++ bs "startxref" ++ [10] ++ dec off ++ [10] ++ bs "%%EOF" ++ [10]). split; [exact FL|]. split; [exact WT|].
    rewrite <- CF. replace (Z.to_nat off) with (length (file ++ body')) by (unfold off; rewrite app_length; lia). rewrite (app_assoc file body'), skipn_app, skipn_all, Nat.sub_diag. easy. }
  assert (HD' : has_header F v) by (destruct HD as (V & r & ->); split; [exact V|]; exists (r ++ body' ++ tail); rewrite EF, <- !app_assoc; easy).
  assert (PR' : Forall (present E') (new :: l)).
  { constructor; [exact PN|]. apply Forall_forall. intros y Y. rewrite Forall_forall in PR. unfold E'. rewrite EF.
    exact (present_more E y (body' ++ tail) false stm' (PR y Y) eq_refl (fun d => ST y d Y)). }
  assert (ND' : NoDup (map coff (new :: l))).
  { cbn [map]. constructor; [|exact ND]. intros I. apply in_map_iff in I. destruct I as (y & EQ & Y). rewrite Forall_forall in PR.
    pose proof (present_inside E y (PR y Y)) as B. change (pfile E) with file in B. unfold new in EQ. cbn [coff] in EQ. unfold off in EQ. lia. }
  destruct (fill_trailer_facts old (xref_size (add_objects (all_adds adds frees))) prev id) as (T0 & TS & TI & TR & TN & TP' & TX & TE). fold tr in T0, TS, TI, TR, TN, TP', TX, TE.
  assert (CL : closed (new :: l) (new :: l)).
  { destruct LK as [[-> ->] | (x & l' & -> & -> & P0 & C)].
    - left. exact TP'.
    - split; [|split; [exact P0|]]; [change (cdict new) with tr; rewrite TP'; replace (0 <? coff x) with true by lia; easy|].
      apply (closed_more (x :: l')); [intros z; right; assumption|exact C]. }
  assert (DP' : forall y, In y (new :: l) -> (2 * length (new :: l) + cneed y <= 256)%nat).
  { intros y [<- | Y]; [|exact (DP y Y)]. unfold cneed. change (cdict new) with tr. cbn [length]. lia. }
  assert (SZ : exists n, newest_key (bs "Size") (new :: l) = Some (ONum n)) by (eexists; cbn [newest_key]; change (cdict new) with tr; rewrite TS; reflexivity).
  assert (FL : Z.of_nat (length F) < 2 ^ 63) by lia.
  destruct (file_newest false F stm' v new l HD' HE FL PR' CL ND' DP' SZ) as (st & t & PF & LKP & T & K1 & K2). fold E' in LKP.
  exists tail, st, t. split; [exact EF|]. split; [exact AD|]. split; [exact PF|]. split; [exact T|].
  split; [rewrite K1 by (left; easy); cbn [newest_key]; change (cdict new) with tr; rewrite TS; easy|].
  split; [rewrite K1 by (do 4 right; left; easy); cbn [newest_key]; change (cdict new) with tr; rewrite TI; easy|].
  split; [|split].
  - intros k [<- | [<- | []]].
    + rewrite K1 by (do 1 right; left; easy). cbn [newest_key]. change (cdict new) with tr. rewrite TR. easy.
    + rewrite K1 by (do 3 right; left; easy). cbn [newest_key]. change (cdict new) with tr. rewrite TN. easy.
  - intros n r N. rewrite LKP by lia. rewrite newest_new. change (csecs new) with secs. change (pmagic E') with 0. split.
    + intros [(e & L & R) | [NO R]]; [left; exists e; split; [apply H1; [lia|exact L]|exact R]|right]. split.
      * intros I. destruct (changed_due fl tight inc _ objs frees body adds n PO I) as [(g & off' & A) | (g & A)].
        -- apply (NO (XUsed off' g)). apply H1; [lia|exact A].
        -- destruct (free_listed inc (all_adds adds frees) secs n g AD XS A) as [m L]. exact (NO _ L).
      * apply (newest_same E' E); [reflexivity|exact R].
    + intros [(e & D & R) | [NO R]]; [left; exists e; split; [apply H1; [lia|exact D]|exact R]|right]. split.
      * intros e L. apply NO. apply H1 in L; [|lia]. exact (due_changed fl tight inc _ objs frees body adds n e PO L).
      * apply (newest_same E' E); [reflexivity|exact R].
  - intros r L. apply LKP in L; [|lia]. rewrite newest_new in L. destruct L as [(e & L & ->) | [_ L]].
    + left. destruct (H0 e L) as [m ->]. exists m. reflexivity.
    + right. apply (newest_same E' E); [reflexivity|exact L].
Qed.

Lemma stands_more file off r o u : stands_at file off r o -> stands_at (file ++ u) off r o.
Proof.
  intros (w & t & b & k & S0 & Sp & D & Bw & SEP & Bb & NB & NC & (c & k' & -> & Hk) & OF & N & G).
  exists w, t, b, ((c :: k') ++ u). split.
  - rewrite skipn_app. replace (Z.to_nat off - length file)%nat with O by lia. rewrite S0. rewrite <- !app_assoc. reflexivity.
  - repeat (split; [assumption|]). split; [exists c, (k' ++ u); auto|]. split; [rewrite app_length; lia|]. auto.
Qed.

(** ** The signature dictionary in the signed file *)
Lemma inner_all d m : Forall (fun p : list Z * obj => Nat.max 1 (inner (snd p)) <= m)%nat d -> (inner (ODict d) <= m)%nat.
Proof. induction 1 as [|[k v] d H _ IH]; [cbn [inner]; lia|]. cbn [inner snd] in *. lia. Qed.
Lemma add_depth k v d m : (1 <= m)%nat -> (inner (ODict d) <= m)%nat -> (inner v <= m)%nat -> (inner (ODict (dict_add k v d)) <= m)%nat.
Proof.
  intros M D V. apply inner_all. apply Forall_forall. intros p I. apply dict_add_in in I. destruct I as [->|I]; [cbn [snd]; lia|].
  pose proof (inner_dict default_params buf20 d 0 m ltac:(lia)) as A. rewrite Forall_forall in A. specialize (A p I). lia.
Qed.
Definition stand_in (e : dict) (n : nat) : dict :=
  dict_add (bs "ByteRange") (OStr false (repeat 120 35)) (dict_add (bs "Contents") (OStr true (repeat 0 n)) e).
Lemma stand_in_good e n : wf_obj default_params (ODict e) -> (S (inner (ODict e)) <= 256)%nat ->
  wf_obj default_params (ODict (stand_in e n)) /\ (S (inner (ODict (stand_in e n))) <= 256)%nat.
Proof.
  intros W D. split.
  - apply wf_pairs in W. destruct W as [So W]. apply wf_pairs. split; [apply dict_add_sorted, dict_add_sorted, So|].
    apply Forall_forall. intros p I. rewrite Forall_forall in W.
    assert (BZ : forall (x : Z) k, 0 <= x < 256 -> bytes_ok (repeat x k)).
    { intros x k X. apply Forall_forall. intros y Y. apply repeat_spec in Y. subst y. exact X. }
    apply dict_add_in in I. destruct I as [->|I]; [split; [apply name_okb_ok; vm_compute; reflexivity|cbn [wf_obj snd]; apply BZ; lia]|].
    apply dict_add_in in I. destruct I as [->|I]; [split; [apply name_okb_ok; vm_compute; reflexivity|cbn [wf_obj snd]; apply BZ; lia]|]. apply W. exact I.
  - apply le_n_S. unfold stand_in. apply add_depth; [lia| |cbn [inner]; lia]. apply add_depth; [lia|lia|cbn [inner]; lia].
Qed.
Lemma stand_in_saveable before r e after frees n : signable before r e after frees -> saveable (before ++ (r, ODict (stand_in e n), true) :: after) frees.
Proof.
  intros (ND & OO & FF). split; [rewrite map_app in *; exact ND|]. split; [|exact FF]. intros r' o d I. apply in_app_or in I.
  destruct I as [I|[I|I]]; [apply (OO r' o d); apply in_or_app; left; exact I| |apply (OO r' o d); apply in_or_app; right; right; exact I].
  injection I as <- <- <-. destruct (OO r (ODict e) true) as (A & B & C & D); [apply in_or_app; right; left; reflexivity|].
  destruct (stand_in_good e n C D). auto.
Qed.
Lemma stand_in_put fl tight file before r e after frees old prev id n A M R (s : shape fl tight file before r e after frees old prev id n A M R) :
  wf_obj default_params (ODict e) -> (S (inner (ODict e)) <= 256)%nat ->
  exists body, put_objects fl tight true (Z.of_nat (length file)) (before ++ (r, ODict (stand_in e n), true) :: after) =
      Ok (body, sa1 _ _ _ _ _ _ _ _ _ _ _ _ _ _ _ s ++ (r, XInUse (Some (Z.of_nat (length file) + Z.of_nat (length (sb1 _ _ _ _ _ _ _ _ _ _ _ _ _ _ _ s))))) :: sa3 _ _ _ _ _ _ _ _ _ _ _ _ _ _ _ s) /\
    length body = length (sb1 _ _ _ _ _ _ _ _ _ _ _ _ _ _ _ s ++ ((object_head fl tight r ++ dict_open fl) ++
      filled fl (stx _ _ _ _ _ _ _ _ _ _ _ _ _ _ _ s) (sty _ _ _ _ _ _ _ _ _ _ _ _ _ _ _ s) (stz _ _ _ _ _ _ _ _ _ _ _ _ _ _ _ s) range_beacon (contents_beacon n) ++ [62; 62] ++ object_end) ++ sb3 _ _ _ _ _ _ _ _ _ _ _ _ _ _ _ s).
Proof.
  intros W D. destruct s as [b1 a1 b3 a3 tx ty tz tl X Y Z0 G EX EY EZ PB PA CL EA EM ER]. cbn [sb1 sa1 sb3 sa3 stx sty stz].
  destruct (stand_in_good e n W D) as [W0 D0].
  assert (WA : write fl (OStr false (repeat 120 35)) = Ok (write_string false (repeat 120 35))) by reflexivity.
  assert (WC : write fl (OStr true (repeat 0 n)) = Ok (write_string true (repeat 0 n))) by reflexivity.
  pose proof (object_filled fl tight r e X Y Z0 tx ty tz _ _ _ _ G EX EY EZ WA WC W0) as OT. fold (stand_in e n) in OT.
  assert (LA : length (write_string false (repeat 120 35)) = length range_beacon) by reflexivity.
  assert (LC : length (write_string true (repeat 0 n)) = length (contents_beacon n)) by (rewrite hex_len, repeat_length; unfold contents_beacon; rewrite repeat_length; reflexivity).
  assert (LT : forall x, length (x ++ filled fl tx ty tz (write_string false (repeat 120 35)) (write_string true (repeat 0 n)) ++ [62; 62] ++ object_end) =
    length (x ++ filled fl tx ty tz range_beacon (contents_beacon n) ++ [62; 62] ++ object_end)).
  { intros x. unfold filled. rewrite !app_length, LA, LC. reflexivity. }
  rewrite put_objects_app, PB. cbn [bind fst snd put_objects negb andb]. rewrite OT. cbn [bind]. rewrite LT, PA. cbn [bind fst snd].
  eexists. split; [reflexivity|]. rewrite !app_length. specialize (LT (object_head fl tight r ++ dict_open fl)). rewrite !app_length in LT. lia.
Qed.

Lemma white10 : Forall white [10]. Proof. constructor; [unfold white; cbn [In]; tauto|constructor]. Qed.
Lemma signed_stands fl tight file before r e after frees old prev id n A M R (s : shape fl tight file before r e after frees old prev id n A M R) o p q cont :
  options_ok fl tight -> wf_obj default_params (ODict e) -> (S (inner (ODict e)) <= 256)%nat -> bytes_ok cont -> 0 <= fst r < 2 ^ 32 -> 0 <= snd r < 2 ^ 16 ->
  spelled default_params (range_text o p q) (OArr [ONum 0; ONum o; ONum p; ONum q]) ->
  stands_at (file_with A M R (range_field o p q) (write_string true cont)) (Z.of_nat (length file) + Z.of_nat (length (sb1 _ _ _ _ _ _ _ _ _ _ _ _ _ _ _ s))) r
    (ODict (signed_dict e [ONum 0; ONum o; ONum p; ONum q] cont)).
Proof.
  intros [F TG] W D BC N1 N2 SA. rewrite (shape_file _ _ _ _ _ _ _ _ _ _ _ _ _ _ _ s).
  destruct s as [b1 a1 b3 a3 tx ty tz tl X Y Z0 G EX EY EZ PB PA CL EA EM ER]. cbn [sb1 sb3 stx sty stz stail].
  pose proof (proj1 (wf_pairs e) W) as [So WP].
  assert (PG : Forall pair_good (X ++ (bs "ByteRange", ONull) :: Y ++ (bs "Contents", ONull) :: Z0)).
  { apply Forall_forall. intros x I. apply (Permutation_in _ (groups_perm e X Y Z0 G ONull ONull)) in I. rewrite Forall_forall in WP.
    apply dict_add_in in I. destruct I as [->|I]; [split; [apply name_okb_ok; vm_compute; reflexivity|exact Logic.I]|].
    apply dict_add_in in I. destruct I as [->|I]; [split; [apply name_okb_ok; vm_compute; reflexivity|exact Logic.I]|]. apply WP. exact I. }
  apply Forall_app in PG. destruct PG as [GX PG]. apply Forall_inv_tail in PG. apply Forall_app in PG. destruct PG as [GY PG]. apply Forall_inv_tail in PG.
  assert (SC : spelled default_params (write_string true cont) (OStr true cont)).
  { destruct (write_wgood default_params buf20 fl F (OStr true cont) BC (write_string true cont) eq_refl) as [(w & t & E & FW & Sp) _].
    destruct w as [|c w]; [rewrite E; exact Sp|]. exfalso. cbn [app] in E. unfold write_string in E. injection E as E0 _. pose proof (Forall_inv FW) as X0. rewrite <- E0 in X0. unfold white in X0. cbn [In] in X0. lia. }
  assert (FR : row default_params (filled fl tx ty tz (range_field o p q) (write_string true cont))
    (flat_map (fun p => [OName (fst p); snd p]) (X ++ (bs "ByteRange", OArr [ONum 0; ONum o; ONum p; ONum q]) :: Y ++ (bs "Contents", OStr true cont) :: Z0))).
  { apply (filled_row fl X Y Z0 tx ty tz [] (range_text o p q) _ (repeat 32 (37 - length (range_text o p q))) [] (write_string true cont)); auto.
    - apply Forall_forall. intros y I. apply repeat_spec in I. subst y. unfold white. cbn [In]. tauto.
    - apply begins_cat; [apply (sep_white fl 0)|]. apply special_begins; [cbn; tauto|discriminate].
    - apply begins_cat; [apply (sep_white fl 0)|]. apply special_begins; [cbn; tauto|discriminate]. }
  assert (Sd : DictProofs.sorted (signed_dict e [ONum 0; ONum o; ONum p; ONum q] cont)) by (apply dict_add_sorted, dict_add_sorted, So).
  pose proof (groups_perm e X Y Z0 G (OArr [ONum 0; ONum o; ONum p; ONum q]) (OStr true cont)) as PM. fold (signed_dict e [ONum 0; ONum o; ONum p; ONum q] cont) in PM.
  set (op := if wclean fl then [10] else []).
  exists (if tight then [] else [10]), (60 :: 60 :: (op ++ filled fl tx ty tz (range_field o p q) (write_string true cont)) ++ [62; 62]), [10], ([10] ++ b3 ++ tl).
  split.
  { replace (Z.to_nat _) with (length (file ++ b1)) by (rewrite app_length; lia). rewrite <- !app_assoc. rewrite (app_assoc file b1), skipn_app, skipn_all, Nat.sub_diag. cbn [skipn app].
    unfold object_head, dict_open, object_end, op. destruct (wclean fl); repeat first [rewrite <- app_assoc | progress cbn [app]]; reflexivity. }
  split.
  { apply sp_dict with (e := X ++ (bs "ByteRange", OArr [ONum 0; ONum o; ONum p; ONum q]) :: Y ++ (bs "Contents", OStr true cont) :: Z0); [| |exact PM|exact Sd].
    - apply row_blank; [|exact FR]. apply white_blank. unfold op. destruct (wclean fl); [exact white10|constructor].
    - apply (Permutation_NoDup (Permutation_sym (Permutation_map fst PM))). apply sorted_nodup. exact Sd. }
  split.
  { apply le_n_S. unfold signed_dict. apply add_depth; [lia| |cbn [inner]; lia]. apply add_depth; [lia|lia|cbn [inner]; lia]. }
  split; [destruct tight; [constructor|apply white_blank; exact white10]|].
  split; [apply begins_separate; destruct tight; [apply special_begins; [cbn; tauto|discriminate]|apply white_begins; unfold white; cbn [In]; tauto]|].
  split; [apply white_blank; exact white10|]. split; [discriminate|]. split; [discriminate|].
  split; [exists 10, (b3 ++ tl); split; [reflexivity|unfold white; cbn [In]; tauto]|]. split; [rewrite !app_length; lia|]. auto.
Qed.

(** ** The signed file *)
Lemma range_two o p q A C R : Z.of_nat (length A) = o -> o + Z.of_nat (length C) = p -> Z.of_nat (length R) = q ->
  range_bytes (A ++ C ++ R) [ONum 0; ONum o; ONum p; ONum q] = Some (A ++ R).
Proof.
  intros EA EC ER. cbn [range_bytes]. rewrite !len_app.
  replace ((0 <=? 0) && (0 <=? o) && (0 + o <=? _)) with true by lia. replace ((0 <=? p) && (0 <=? q) && (p + q <=? _)) with true by lia.
  f_equal. rewrite app_nil_r. f_equal.
  - cbn [Z.to_nat skipn]. replace (Z.to_nat o) with (length A) by lia. rewrite firstn_app, firstn_all, Nat.sub_diag. cbn [firstn]. apply app_nil_r.
  - rewrite app_assoc. replace (Z.to_nat p) with (length (A ++ C)) by (rewrite app_length; lia). rewrite skipn_app, skipn_all, Nat.sub_diag. cbn [skipn app].
    replace (Z.to_nat q) with (length R) by lia. apply firstn_all.
Qed.
Lemma signed_file fl tight file before r d after frees old id filter sub type n signer v x l stm stm' F res :
  let e := plain_entries filter sub type d in
  let objs := before ++ (r, ODict e, true) :: after in
  options_ok fl tight -> signable before r e after frees -> trailer_parts old (coff x) id -> has_header file v -> (length (changed true objs frees) < 511)%nat ->
  (forall parts, bytes_ok (signer parts)) ->
  let E := mk_penv file false 0 (at_least_13 (get_version v)) stm in
  Forall (present E) (x :: l) -> NoDup (map coff (x :: l)) -> closed (x :: l) (x :: l) -> 0 < coff x ->
  (forall y, In y (x :: l) -> 2 * S (length (x :: l)) + cneed y <= 256)%nat ->
  (forall y d, In y (x :: l) -> stm' d (coff y) = stm d (coff y)) ->
  sign_document fl tight file before r d after frees old (coff x) id filter sub type n signer = Ok (F, res) -> Z.of_nat (length F) < 10 ^ 10 ->
  exists parts o p q st t, let range := [ONum 0; ONum o; ONum p; ONum q] in let s := signer parts in
    range_bytes F range = Some (concat parts) /\ Forall (fun b => b <> [] /\ Z.of_nat (length b) <= 65536) parts /\
    0 < o /\ p = o + 2 * Z.of_nat n + 2 /\ p + q = Z.of_nat (length F) /\
    parse_file false F stm' new_parser = (Ok tt, st) /\ trail st = Some t /\ (exists u, F = file ++ u) /\
    (res = Ok tt <-> (length s <= n)%nat) /\
    (if Nat.ltb n (length s) then res = Err EInternalLogic /\ firstn (Z.to_nat (p - o)) (skipn (Z.to_nat o) F) = repeat 32 (2 * n + 2)
     else let contents := s ++ repeat 0 (n - length s) in
       found F (ents st) r (ODict (signed_dict e range contents)) /\ spelled default_params (firstn (Z.to_nat (p - o)) (skipn (Z.to_nat o) F)) (OStr true contents)) /\
    (forall r' o', In (r', o', true) (before ++ after) -> found F (ents st) r' o') /\
    (forall r', In r' frees -> exists m, look (ents st) (fst r') = Some (RFree m (snd r'))) /\
    (forall n r', 1 <= n -> ~ In n (changed true objs frees) -> (look (ents st) n = Some r' <-> newest E (x :: l) n r')) /\
    (forall n g off o', 1 <= n -> ~ In n (changed true objs frees) -> newest E (x :: l) n (RUsed off g) -> stands_at file off (n, g) o' ->
       found F (ents st) (n, g) o') /\
    (forall k, In k [bs "Root"; bs "Info"] -> dict_get k t = match dict_get k old with Some w => Some w | None => newest_key k (x :: l) end).
Proof.
  intros e objs OK SG TP HD CH SB E PR ND CL C0 DP ST H LF.
  destruct SG as (SN & OO & FF). assert (INr : In (r, ODict e, true) objs) by (apply in_or_app; right; left; reflexivity).
  destruct (OO r (ODict e) true INr) as (R1 & R2 & W & D).
  destruct (signed_shape fl tight file before r d after frees old (coff x) id filter sub type n signer F res W LF H) as (A & M & R & parts & [s] & H'). fold e in s, H'. cbv zeta in H'.
  set (o := Z.of_nat (length A) + 37 + Z.of_nat (length M)) in *. set (p := o + Z.of_nat (2 * n + 2)) in *. set (q := Z.of_nat (length R)) in *.
  destruct H' as (FL & SA & O1 & P1 & Q1 & LT & CC & FA & RES).
  destruct (stand_in_put _ _ _ _ _ _ _ _ _ _ _ _ _ _ _ s W D) as (body & PO & LB).
  set (c := if Nat.ltb n (length (signer parts)) then contents_beacon n else write_string true (signer parts ++ repeat 0 (n - length (signer parts)))).
  assert (LC : length c = (2 * n + 2)%nat).
  { unfold c. destruct (Nat.ltb n (length (signer parts))) eqn:LS; [apply repeat_length|]. apply Nat.ltb_ge in LS. rewrite hex_len, app_length, repeat_length. lia. }
  assert (EF : F = file_with A M R (range_field o p q) c) by (unfold c; destruct (Nat.ltb n (length (signer parts))); apply RES).
  pose proof (shape_file _ _ _ _ _ _ _ _ _ _ _ _ _ _ _ s (range_field o p q) c) as SF. rewrite <- EF in SF.
  set (obj1 := (object_head fl tight r ++ dict_open fl) ++ filled fl (stx _ _ _ _ _ _ _ _ _ _ _ _ _ _ _ s) (sty _ _ _ _ _ _ _ _ _ _ _ _ _ _ _ s) (stz _ _ _ _ _ _ _ _ _ _ _ _ _ _ _ s) (range_field o p q) c ++ [62; 62] ++ object_end) in *.
  set (b1 := sb1 _ _ _ _ _ _ _ _ _ _ _ _ _ _ _ s) in *. set (b3 := sb3 _ _ _ _ _ _ _ _ _ _ _ _ _ _ _ s) in *. set (tl := stail _ _ _ _ _ _ _ _ _ _ _ _ _ _ _ s) in *.
  assert (RB : length range_beacon = 37%nat) by reflexivity. assert (CB : length (contents_beacon n) = (2 * n + 2)%nat) by apply repeat_length.
  assert (LB' : length (b1 ++ obj1 ++ b3) = length body).
  { rewrite LB. unfold obj1, filled. rewrite !app_length, FL, LC, RB, CB. reflexivity. }
  pose proof (s_close _ _ _ _ _ _ _ _ _ _ _ _ _ _ _ s (b1 ++ obj1 ++ b3) (eq_trans LB' LB)) as CF. fold tl in CF. fold b1 in CF. rewrite <- SF in CF.
  set (adds := sa1 _ _ _ _ _ _ _ _ _ _ _ _ _ _ _ s ++ (r, XInUse (Some (Z.of_nat (length file) + Z.of_nat (length b1)))) :: sa3 _ _ _ _ _ _ _ _ _ _ _ _ _ _ _ s) in *.
  replace (sa1 _ _ _ _ _ _ _ _ _ _ _ _ _ _ _ s ++ (r, XInUse (Some (Z.of_nat (length file) + Z.of_nat (length b1)))) :: sa3 _ _ _ _ _ _ _ _ _ _ _ _ _ _ _ s ++ map (fun r => (r, XFreed)) frees)
    with (all_adds adds frees) in CF by (unfold all_adds, adds; rewrite <- app_assoc; reflexivity).
  set (objs0 := before ++ (r, ODict (stand_in e n), true) :: after) in *.
  assert (CHE : changed true objs0 frees = changed true objs frees).
  { unfold changed, objs0, objs. rewrite !filter_app, !map_app. reflexivity. }
  assert (SV0 : saveable objs0 frees) by (apply stand_in_saveable; split; [exact SN|split; [exact OO|exact FF]]).
  assert (LN : (length (x :: l) <= 126)%nat) by (specialize (DP x (or_introl eq_refl)); unfold cneed in DP; lia).
  destruct (after_close fl tight true file objs0 frees old (coff x) id v (x :: l) stm stm' body adds (b1 ++ obj1 ++ b3) F OK SV0 TP (or_introl eq_refl) HD ltac:(rewrite CHE; exact CH) PR ND
    (or_intror (ex_intro _ x (ex_intro _ l (conj eq_refl (conj eq_refl (conj C0 CL)))))) DP LN ST PO LB' CF LF) as (rest & st & t & FE & AD & PF & T & _ & _ & RI & LK & _).
  rewrite CHE in LK.
  assert (UN : forall n r, 1 <= n -> ~ In n (changed true objs frees) -> (look (ents st) n = Some r <-> newest E (x :: l) n r)).
  { intros k r' N NC. rewrite (LK k r' N). split; [intros [(e' & D' & _) | [_ R']]; [|exact R']|intros R'; right; split; assumption].
    exfalso. apply NC. rewrite <- CHE. exact (due_changed fl tight true _ objs0 frees body adds k e' PO D'). }
  assert (USED : forall r' off, In (r', XInUse (Some off)) adds -> 1 <= fst r' -> look (ents st) (fst r') = Some (RUsed off (snd r'))).
  { intros r' off J B. apply LK; [exact B|]. left. exists (XUsed off (snd r')). split; [|cbn [as_read]; rewrite Z.add_0_r; easy].
    cbn [due]. unfold added_used, all_adds. apply in_or_app. left. destruct r'; exact J. }
  exists parts, o, p, q, st, t. cbv zeta.
  assert (MID : F = (A ++ range_field o p q ++ M) ++ c ++ R) by (rewrite EF; unfold file_with; rewrite <- !app_assoc; reflexivity).
  assert (LMID : Z.of_nat (length (A ++ range_field o p q ++ M)) = o) by (rewrite !len_app, FL; unfold o; lia).
  assert (CUT : firstn (Z.to_nat (p - o)) (skipn (Z.to_nat o) F) = c).
  { rewrite MID. replace (Z.to_nat o) with (length (A ++ range_field o p q ++ M)) by lia. rewrite skipn_app, skipn_all, Nat.sub_diag. cbn [skipn app].
    replace (Z.to_nat (p - o)) with (length c) by (rewrite LC; unfold p; lia). rewrite firstn_app, firstn_all, Nat.sub_diag. cbn [firstn]. apply app_nil_r. }
  split; [rewrite CC, MID; replace (A ++ range_field o p q ++ M ++ R) with ((A ++ range_field o p q ++ M) ++ R) by (rewrite <- !app_assoc; reflexivity);
    apply range_two; [exact LMID|rewrite LC; reflexivity|reflexivity]|].
  split; [exact FA|]. split; [unfold o; lia|]. split; [unfold p; lia|]. split; [symmetry; exact LT|]. split; [exact PF|]. split; [exact T|].
  split; [exists ((b1 ++ obj1 ++ b3) ++ rest); exact FE|].
  split; [destruct (Nat.ltb n (length (signer parts))) eqn:LS; [apply Nat.ltb_lt in LS; destruct RES as [-> _]; split; [discriminate|lia]|apply Nat.ltb_ge in LS; destruct RES as [-> _]; tauto]|].
  split; [|split; [|split; [|split; [exact UN|split; [|exact RI]]]]].
  - rewrite CUT. unfold c. destruct (Nat.ltb n (length (signer parts))) eqn:LS; [split; [apply RES|reflexivity]|].
    assert (BC : bytes_ok (signer parts ++ repeat 0 (n - length (signer parts)))).
    { apply Forall_app. split; [apply SB|]. apply Forall_forall. intros y Y. apply repeat_spec in Y. subst y. unfold is_byte. lia. }
    split.
    + exists (Z.of_nat (length file) + Z.of_nat (length b1)). split; [apply USED; [apply in_or_app; right; left; reflexivity|lia]|].
      destruct RES as [_ EF2]. rewrite EF2. apply load_stands. apply (signed_stands _ _ _ _ _ _ _ _ _ _ _ _ _ _ _ s); auto; lia.
    + destruct OK as [F0 _]. destruct (write_wgood default_params buf20 fl F0 (OStr true (signer parts ++ repeat 0 (n - length (signer parts)))) BC (write_string true (signer parts ++ repeat 0 (n - length (signer parts)))) eq_refl) as [(w & t1 & E1 & FW & Sp) _].
      destruct w as [|z w]; [rewrite E1; exact Sp|]. exfalso. cbn [app] in E1. unfold write_string in E1. injection E1 as E0 _. pose proof (Forall_inv FW) as X0. rewrite <- E0 in X0. unfold white in X0. cbn [In] in X0. lia.
  - intros r' o' I'. assert (IO : In (r', o', true) objs) by (apply in_app_or in I'; apply in_or_app; destruct I' as [I'|I']; [left; exact I'|right; right; exact I']).
    destruct (OO r' o' true IO) as (B1 & B2 & B3 & B4).
    assert (KEY : exists t' u1 u2, obj_text fl tight r' o' = Ok t' /\ F = file ++ u1 ++ t' ++ u2 /\ In (r', XInUse (Some (Z.of_nat (length file) + Z.of_nat (length u1)))) adds).
    { apply in_app_or in I'. destruct I' as [I'|I'].
      - pose proof (s_before _ _ _ _ _ _ _ _ _ _ _ _ _ _ _ s) as PB. destruct (put_facts fl tight true before _ _ _ PB) as (_ & A2 & _).
        destruct (A2 r' o' true I' eq_refl) as (t' & u1 & u2 & OT & EB & J). fold b1 in EB. exists t', u1, (u2 ++ obj1 ++ b3 ++ rest). split; [exact OT|].
        split; [rewrite FE, EB, <- !app_assoc; reflexivity|]. apply in_or_app. left. exact J.
      - pose proof (s_after _ _ _ _ _ _ _ _ _ _ _ _ _ _ _ s) as PB. destruct (put_facts fl tight true after _ _ _ PB) as (_ & A2 & _).
        destruct (A2 r' o' true I' eq_refl) as (t' & u1 & u2 & OT & EB & J). fold b3 in EB. exists t', (b1 ++ obj1 ++ u1), (u2 ++ rest). split; [exact OT|].
        split; [rewrite FE, EB, <- !app_assoc; reflexivity|]. apply in_or_app. right. right.
        match type of J with In (_, XInUse (Some ?a)) _ => replace a with (Z.of_nat (length file) + Z.of_nat (length (b1 ++ obj1 ++ u1))) in J; [exact J|] end.
        fold b1. rewrite !len_app. unfold obj1, filled. rewrite !len_app, FL, LC, RB, CB. lia. }
    destruct KEY as (t' & u1 & u2 & OT & EB & J). exists (Z.of_nat (length file) + Z.of_nat (length u1)). split; [apply USED; [exact J|lia]|].
    destruct OK as [F0 TG]. destruct r' as [n' g']. cbn [fst snd] in *.
    apply (load_text fl tight n' g' o' t' F _ u2 F0 TG B3 B4 ltac:(lia) B2 OT). rewrite EB.
    replace (Z.to_nat (Z.of_nat (length file) + Z.of_nat (length u1))) with (length (file ++ u1)) by (rewrite app_length; lia).
    rewrite app_assoc, skipn_app, skipn_all, Nat.sub_diag. reflexivity.
  - intros r' I'. destruct (FF r' I') as [B1 B2].
    assert (AF : added_free (all_adds adds frees) (fst r') (snd r')) by (apply in_or_app; right; apply in_map_iff; exists r'; split; [destruct r'|]; easy).
    destruct (table_lists (all_adds adds frees) true AD (or_introl eq_refl)) as (secs & XS & _ & _ & FR & _). destruct (FR _ _ AF) as [m L].
    destruct (sections_of_adds (all_adds adds frees) true AD (or_introl eq_refl)) as (secs' & XS' & _ & H1 & _). rewrite XS in XS'. apply ok_inj in XS'. subst secs'.
    exists m. apply LK; [lia|]. left. exists (XFree m (snd r')). split; [apply H1; [lia|exact L]|easy].
  - intros k g off o' N NC NW WR. exists off. split; [apply UN; assumption|]. rewrite FE. apply load_stands. apply stands_more. exact WR.
Qed.

(** ** Signing comes to an end *)
Lemma sign_total fl tight file before r d after frees old prev id filter sub type n signer : signable before r (plain_entries filter sub type d) after frees ->
  trailer_parts old prev id -> exists F res, sign_document fl tight file before r d after frees old prev id filter sub type n signer = Ok (F, res).
Proof.
  intros SG TP. set (e := plain_entries filter sub type d) in *. pose proof (stand_in_saveable before r e after frees n SG) as SV0. destruct SG as (SN & OO & FF).
  destruct (OO r (ODict e) true) as (R1 & R2 & W & D); [apply in_or_app; right; left; reflexivity|].
  destruct (put_total fl tight true before (Z.of_nat (length file))) as (b1 & a1 & PB).
  { intros r' o' d' I'. apply (OO r' o' d'). apply in_or_app. left. exact I'. }
  destruct (two_split e) as (X & Y & Z0 & G).
  assert (PG : Forall pair_good (X ++ (bs "ByteRange", ONull) :: Y ++ (bs "Contents", ONull) :: Z0)).
  { apply Forall_forall. intros p I. apply (Permutation_in _ (groups_perm e X Y Z0 G ONull ONull)) in I. pose proof W as W'. apply wf_pairs in W'. destruct W' as [_ W']. rewrite Forall_forall in W'.
    apply dict_add_in in I. destruct I as [->|I]; [split; [apply name_okb_ok; vm_compute; reflexivity|exact Logic.I]|].
    apply dict_add_in in I. destruct I as [->|I]; [split; [apply name_okb_ok; vm_compute; reflexivity|exact Logic.I]|]. apply W'. exact I. }
  assert (TOT : forall l, Forall pair_good l -> exists t, pairs_text fl l = Ok t).
  { induction 1 as [|[k v] l [K V] _ [t IH]]; [eexists; reflexivity|]. cbn [pairs_text fst snd] in *. destruct (write_total default_params fl v V) as [a WA].
    destruct K as (KB & K0 & KL). destruct (write_total default_params fl (OName k)) as [kt KT]; [repeat split; auto|]. cbn [write] in KT. rewrite KT, WA, IH. eexists. reflexivity. }
  apply Forall_app in PG. destruct PG as [GX PG]. apply Forall_inv_tail in PG. apply Forall_app in PG. destruct PG as [GY PG]. apply Forall_inv_tail in PG.
  destruct (TOT X GX) as [tx EX]. destruct (TOT Y GY) as [ty EY]. destruct (TOT Z0 PG) as [tz EZ].
  pose proof (signature_text fl tight (Z.of_nat (length file) + Z.of_nat (length b1)) r e X Y Z0 tx ty tz n G EX EY EZ) as PS. cbv zeta in PS.
  set (obj0 := (object_head fl tight r ++ dict_open fl) ++ filled fl tx ty tz range_beacon (contents_beacon n) ++ [62; 62] ++ object_end) in *.
  destruct (put_total fl tight true after (Z.of_nat (length file) + Z.of_nat (length b1) + Z.of_nat (length obj0))) as (b3 & a3 & PA).
  { intros r' o' d' I'. apply (OO r' o' d'). apply in_or_app. right. right. exact I'. }
  assert (PO : exists body, put_objects fl tight true (Z.of_nat (length file)) (before ++ (r, ODict (stand_in e n), true) :: after) = Ok (body, a1 ++ (r, XInUse (Some (Z.of_nat (length file) + Z.of_nat (length b1)))) :: a3)).
  { destruct (stand_in_good e n W D) as [W0 D0].
    assert (WA : write fl (OStr false (repeat 120 35)) = Ok (write_string false (repeat 120 35))) by reflexivity.
    assert (WC : write fl (OStr true (repeat 0 n)) = Ok (write_string true (repeat 0 n))) by reflexivity.
    pose proof (object_filled fl tight r e X Y Z0 tx ty tz _ _ _ _ G EX EY EZ WA WC W0) as OT. fold (stand_in e n) in OT.
    assert (LA : length (write_string false (repeat 120 35)) = length range_beacon) by reflexivity.
    assert (LC : length (write_string true (repeat 0 n)) = length (contents_beacon n)) by (rewrite hex_len, repeat_length; unfold contents_beacon; rewrite repeat_length; reflexivity).
    assert (LT : length ((object_head fl tight r ++ dict_open fl) ++ filled fl tx ty tz (write_string false (repeat 120 35)) (write_string true (repeat 0 n)) ++ [62; 62] ++ object_end) = length obj0).
    { unfold obj0, filled. rewrite !app_length, LA, LC. reflexivity. }
    rewrite put_objects_app, PB. cbn [bind fst snd put_objects negb andb]. rewrite OT. cbn [bind]. rewrite LT, PA. cbn [bind fst snd]. eexists. reflexivity. }
  destruct PO as [body PO]. pose proof (addable_adds _ _ _ _ _ _ _ _ SV0 PO) as AD.
  destruct (sections_of_adds _ true AD (or_introl eq_refl)) as (secs & XS & _).
  destruct (trailer_good old (xref_size (add_objects (all_adds (a1 ++ (r, XInUse (Some (Z.of_nat (length file) + Z.of_nat (length b1)))) :: a3) frees))) prev id TP (size_bound _ AD)) as [WF _].
  destruct (write_total default_params fl _ WF) as [t WT].
  assert (CF : exists F0, close_file fl true file (b1 ++ obj0 ++ b3) (a1 ++ (r, XInUse (Some (Z.of_nat (length file) + Z.of_nat (length b1)))) :: a3 ++ map (fun r => (r, XFreed)) frees) old prev id = Ok F0).
  { unfold all_adds in XS, WT. rewrite <- app_assoc in XS, WT. cbn [app] in XS, WT. unfold close_file. rewrite XS. cbn [bind]. rewrite WT. eexists. reflexivity. }
  destruct CF as [F0 CF].
  assert (SS : exists m, save_signature fl tight file before r (sd e n) after frees old prev id = Ok (F0, m)).
  { unfold save_signature. rewrite PB. cbn [bind]. unfold sd. rewrite PS. cbn [bind]. rewrite PA. cbn [bind]. rewrite CF. eexists. reflexivity. }
  destruct SS as [m SS]. destruct (saved_shape fl tight file before r e after frees old prev id n F0 m W SS) as (A & M & R & _ & EF & BF & BT).
  assert (RB : length range_beacon = 37%nat) by reflexivity. assert (CB : length (contents_beacon n) = (2 * n + 2)%nat) by apply repeat_length.
  unfold sign_document. change (prepare filter sub type n d) with (sd e n). rewrite SS. cbn [bind]. cbv zeta.
  set (o := beacon true m) in *. assert (LS : o + Z.of_nat (length (contents_beacon n)) <= Z.of_nat (length F0)) by (rewrite EF, BT; unfold file_with; rewrite !len_app; lia).
  assert (O0 : 0 <= o) by lia. unfold adjust_range. rewrite range_written by lia. cbn [bind].
  match goal with |- context [read_parts _ ?f _ _ _ _] => set (F1 := f) end.
  assert (G1 : (length F0 <= length F1)%nat) by (unfold F1, write_at; rewrite !app_length, firstn_length, skipn_length; lia).
  destruct (parts_read F1 o (Z.of_nat (length (contents_beacon n))) buffer_size ltac:(lia) ltac:(lia) ltac:(lia) ltac:(reflexivity) (S (length F1)) 0) as (parts & RP & _).
  { left. lia. }
  { assert (Z.of_nat (length (unread F1 o (Z.of_nat (length (contents_beacon n))) 0)) <= Z.of_nat (length F1)); [|lia]. rewrite unread_len; [lia|lia|lia|lia|left; lia]. }
  rewrite RP. cbn [bind]. destruct (Nat.ltb n (length (signer parts))); eexists; eexists; reflexivity.
Qed.
