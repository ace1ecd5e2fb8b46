(** Stream data: predictors, witnesses *)
From Coq Require Import String.
From Verif Require Import Base TokModel WriteModel DictProofs TokProofs ChainProofs ObjSpec ObjProofs FilterModel FilterSpec FilterProofs FilterPropLemmas PredProofs OwnModel OwnProofs ListModel UpdateSpec StreamModel StreamSpec StreamProofs.
Local Open Scope Z_scope.
Local Notation dict := (list (list Z * obj)) (only parsing).

(** ** The output of a filter through a predictor *)
Lemma push_pred ws : forall q, p_pred q <> 1 -> push_all pred_block q ws = pred_bytes q (concat ws).
Proof.
  induction ws as [|b ws IH]; intros q N; [reflexivity|]. cbn [push_all concat]. unfold pred_block at 1. rewrite (proj2 (Z.eqb_neq _ _) N).
  rewrite pred_bytes_app. destruct (pred_bytes q b) as [[q1 w1]| | |] eqn:E; cbn [bind]; try reflexivity.
  fold (push_all pred_block). rewrite IH by (rewrite (pred_bytes_pred _ _ _ _ E); exact N). reflexivity.
Qed.
Lemma with_pred_blocks f p bl : forall s q s1 w q1 o, p_pred q <> 1 -> f_blocks f s bl = Ok (s1, w) -> pred_bytes q (concat w) = Ok (q1, o) ->
  f_blocks (with_pred f p) (s, q) bl = Ok ((s1, q1), o).
Proof.
  induction bl as [|b bl IH]; intros s q s1 w q1 o N H P; cbn [f_blocks] in *.
  - apply ok_inj in H. injection H as <- <-. cbn in P. apply ok_inj in P. injection P as <- <-. reflexivity.
  - apply bind_ok in H. destruct H as ([s' w'] & H1 & H). apply bind_ok in H. destruct H as ([s'' w''] & H2 & H). apply ok_inj in H. injection H as <- <-.
    rewrite concat_app, pred_bytes_app in P. apply bind_ok in P. destruct P as ([q' o'] & P1 & P). apply bind_ok in P. destruct P as ([q'' o''] & P2 & P).
    apply ok_inj in P. injection P as <- <-. cbn [with_pred f_block fst snd]. rewrite H1. cbn [bind]. rewrite push_pred, P1 by exact N. cbn [bind].
    fold (with_pred f p). rewrite (IH _ q' _ _ q'' o'' ltac:(rewrite (pred_bytes_pred _ _ _ _ P1); exact N) H2 P2). reflexivity.
Qed.
Lemma with_pred_yields f p q bl data q1 o : p = Ok q -> p_pred q <> 1 -> yields f bl data -> pred_bytes q data = Ok (q1, o) -> yields (with_pred f p) bl (concat o).
Proof.
  intros -> N (w & R & C) P. unfold f_run in R. apply bind_ok in R. destruct R as (s & R1 & R). apply bind_ok in R. destruct R as ([s1 w1] & R2 & R).
  apply bind_ok in R. destruct R as (w2 & R3 & R). apply ok_inj in R. subst w data. rewrite concat_app, pred_bytes_app in P.
  apply bind_ok in P. destruct P as ([q' o'] & P1 & P). apply bind_ok in P. destruct P as ([q'' o''] & P2 & P). apply ok_inj in P. injection P as <- <-.
  exists (o' ++ o''). split; [|reflexivity]. unfold f_run. cbn [with_pred f_begin bind]. rewrite R1. cbn [bind]. fold (with_pred f (Ok q)).
  rewrite (with_pred_blocks f (Ok q) bl s q s1 w1 q' o' N R2 P1). cbn [bind with_pred f_end fst snd]. rewrite R3. cbn [bind].
  rewrite push_pred, P2 by (rewrite (pred_bytes_pred _ _ _ _ P1); exact N). reflexivity.
Qed.
(** Reading a compressed stream with a predictor *)
Lemma predictor_read z look s p q data q1 o : sfilters s = [FFlate] -> dict_find look (bs "DecodeParms") (sdict s) = Some (ODict p) -> pred_of look p = Ok q -> p_pred q <> 1 ->
  (forall bl, concat bl = sdata s -> yields (zdec z) bl data) -> pred_bytes q data = Ok (q1, o) -> reads_as z look s (concat o).
Proof.
  intros F D P N Y B. exists (length (concat o) + length (sdata s) + 2)%nat. intros n L.
  unfold read_stream, open_stream, parms. rewrite F, D. cbn [orb bind length repeat strip_media is_media decoders decoder filter_decoder firstn].
  apply copy_reads; [discriminate| |exact L]. rewrite decode_stack_id. apply gives_one. intros bl C. eapply with_pred_yields; eauto.
Qed.

Definition tiff : dict := [(bs "Columns", ONum 2); (bs "Predictor", ONum 2)].
Lemma stale_parms z : undoes (zdec z) (zenc z) -> exists s s', DictProofs.sorted (sdict s) /\ set_data z [FFlate] [[1; 1]] s = (Ok tt, s') /\ reads_as z (fun _ => None) s' [1; 2].
Proof.
  intro U. set (s := mk_sobj [(bs "DecodeParms", ODict tiff)] [] []).
  assert (B : bytes_ok [1; 1]) by (apply Forall_cons; [unfold is_byte; lia|apply Forall_cons; [unfold is_byte; lia|constructor]]).
  destruct (U _ B) as (text & BT & E & D).
  exists s, (mk_sobj (set_filter [FFlate] (sdict s)) text [FFlate]). split; [repeat constructor|]. split.
  - unfold set_data. cbn [encoders filter_encoder]. unfold encoded.
    destruct (gives_one (zenc z) [1; 1] text E [[1; 1]] eq_refl) as (w & R & C). change (encode_stack [zenc z]) with [zenc z]. rewrite R. cbn [bind]. rewrite C. reflexivity.
  - change [1; 2] with (concat [[1; 2]]).
    apply (predictor_read z _ (mk_sobj (set_filter [FFlate] (sdict s)) text [FFlate]) tiff (mk_pred 2 8 1 2 2 0 false [0; 0] [0]) [1; 1] (mk_pred 2 8 1 2 2 0 false [1; 2] [0]) [[1; 2]]); cbn [sdict sdata sfilters].
    + reflexivity.
    + vm_compute. reflexivity.
    + vm_compute. reflexivity.
    + discriminate.
    + exact D.
    + vm_compute. reflexivity.
Qed.
Lemma stale_array z : undoes (zdec z) (zenc z) -> exists s s', DictProofs.sorted (sdict s) /\ set_data z [FHex] [[1; 1]] s = (Ok tt, s') /\ forall n, read_stream z (fun _ => None) n false s' = UB.
Proof.
  intro U. exists (mk_sobj [(bs "DecodeParms", OArr [ODict []; ODict []])] [] []). eexists. split; [repeat constructor|]. split.
  - vm_compute. reflexivity.
  - intro n. reflexivity.
Qed.

(** ** Refused changes *)
Lemma refused_set z blocks s : set_data z [FLzw] blocks s = (Err EUnsupportedFilter, mk_sobj (sdict s) [] (sfilters s)).
Proof. reflexivity. Qed.
Lemma refused_loses z : exists s s' e, (forall n, read_stream z (fun _ => None) n false s = Ok [65; 66]) /\ declared (fun _ => None) s /\
  set_data z [FLzw] [[67]] s = (Err e, s') /\ forall n, read_stream z (fun _ => None) n false s' = Ok [].
Proof. exists (mk_sobj [] [65; 66] []), (mk_sobj [] [] []), EUnsupportedFilter. split; [reflexivity|]. split; [reflexivity|]. split; [apply refused_set|reflexivity]. Qed.
Lemma append_refused z look n ts blocks s e : read_stream z look n false s = Err e -> append_data z look n ts blocks s = (Err e, s).
Proof. intro H. unfold append_data. rewrite H. reflexivity. Qed.

(** ** Unwrapping with a media filter *)
Lemma unwrap_loses_filter z : exists s s', declared (fun _ => None) s /\ sfilters s = [FHex; FDct] /\ (exists n, unwrap_stream z (fun _ => None) n s = (Ok tt, s')) /\
  create_filter_list (fun _ => None) (ODict (sdict s')) = Ok [] /\ (forall n, read_stream z (fun _ => None) n false s = Err EUnsupportedFilter) /\
  forall n, read_stream z (fun _ => None) n false s' = Ok [255; 216].
Proof.
  exists (mk_sobj (set_filter [FHex; FDct] []) (bs "FFD8") [FHex; FDct]), (mk_sobj [] [255; 216] []).
  split; [vm_compute; reflexivity|]. split; [reflexivity|]. split; [exists 20%nat; vm_compute; reflexivity|].
  split; [vm_compute; reflexivity|]. split; reflexivity.
Qed.

(** ** Where the data is *)
Lemma blanks_skipped bl r : Forall (fun c => c = 32 \/ c = 9) bl -> data_start (bl ++ r) = data_start r.
Proof. induction 1 as [|c bl [->| ->] _ IH]; [reflexivity|exact IH|exact IH]. Qed.
Lemma load_finds look (d : dict) bl eol data k ts : Forall (fun c => c = 32 \/ c = 9) bl -> eol = [10] \/ eol = [13; 10] ->
  dict_find look (bs "Length") d = Some (ONum (Z.of_nat (length data))) -> create_filter_list look (ODict d) = Ok ts ->
  load_data look d (bl ++ eol ++ data ++ k) = Ok (mk_sobj d data ts).
Proof.
  intros B E L C. unfold load_data. rewrite L, blanks_skipped by exact B.
  assert (data_start (eol ++ data ++ k) = Ok (data ++ k)) as -> by (destruct E as [->| ->]; reflexivity).
  cbn [bind]. rewrite C. cbn [bind]. rewrite (proj2 (Z.ltb_ge _ 0)) by lia. rewrite Nat2Z.id, firstn_app, Nat.sub_diag, firstn_all. cbn [firstn]. rewrite app_nil_r. reflexivity.
Qed.
Lemma load_short : exists d rest s, dict_get (bs "Length") d = Some (ONum 100) /\ rest = 10 :: bs "abc" /\ load_data (fun _ => None) d rest = Ok s /\ sdata s = bs "abc".
Proof. exists [(bs "Length", ONum 100)]. do 2 eexists. split; [reflexivity|]. split; [reflexivity|]. split; reflexivity. Qed.
Lemma load_negative : exists d s, dict_get (bs "Length") d = Some (ONum (-1)) /\ load_data (fun _ => None) d (10 :: bs "abc" ++ 10 :: bs "endstream" ++ bs " rest of the file") = Ok s /\
  sdata s = bs "abc" ++ 10 :: bs "endstream" ++ bs " rest of the file".
Proof. exists [(bs "Length", ONum (-1))]. eexists. split; [reflexivity|]. split; [vm_compute; reflexivity|vm_compute; reflexivity]. Qed.

(** ** Object streams *)
Lemma object_stream_layout look (d : dict) fl ms l b want : flags_ok fl -> Forall (fun m => 0 <= fst m < 2 ^ 32 /\ wf_obj default_params (snd m) /\ (S (inner (snd m)) <= 256)%nat) ms ->
  layout fl 0 ms = Ok (l, b) -> Z.of_nat (length (table l ++ b)) < 2 ^ 63 - 1 ->
  dict_find look (bs "N") d = Some (ONum (Z.of_nat (length ms))) -> dict_find look (bs "First") d = Some (ONum (Z.of_nat (length (table l)))) ->
  object_stream look d (table l ++ b) want = Ok (map (fun m => ((fst m, 0), snd m)) (filter (fun m => existsb (Z.eqb (fst m)) want) ms)).
Proof.
  intros Hf W LY B HN HF.
  destruct (layout_placed fl (table l ++ b) (Z.of_nat (length (table l))) Hf ms 0 l b (table l) LY) as [M P].
  { eapply Forall_impl; [|exact W]. intros m X. apply X. } { reflexivity. } { lia. } { lia. } { lia. }
  assert (LL : length l = length ms) by (rewrite <- M, map_length; reflexivity).
  rewrite (object_stream_members look d (table l ++ b) (Z.of_nat (length (table l))) l b want); [|rewrite LL; exact HN|exact HF|reflexivity|lia|].
  - f_equal. rewrite <- M. clear. induction l as [|[[n o] v] l IH]; [reflexivity|]. cbn [filter map fst snd]. destruct (existsb (Z.eqb n) want); cbn [map fst snd]; rewrite IH; reflexivity.
  - rewrite Forall_forall in *. intros m I. specialize (P m I).
    assert (I2 : In (fst (fst m), snd m) ms) by (rewrite <- M; apply in_map_iff; exists m; split; [reflexivity|exact I]).
    specialize (W _ I2). cbn [fst snd] in W. split; [apply W|]. split; [apply P|]. split; [lia|apply P].
Qed.
Lemma negative_offset : exists d data, object_stream (fun _ => None) d data [5] = UB.
Proof. exists [(bs "First", ONum 6); (bs "N", ONum 1)], (bs "5 -1 null"). vm_compute. reflexivity. Qed.
Lemma missing_member : exists d data, object_stream (fun _ => None) d data [7] = Ok [].
Proof. exists [(bs "First", ONum 4); (bs "N", ONum 1)], (bs "5 0 null"). vm_compute. reflexivity. Qed.
