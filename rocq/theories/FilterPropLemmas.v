(** Short lemmas behind FilterProps.v. *)
From Coq Require Import String.
From Verif Require Import Base BitLemmas TokModel WriteModel FilterModel FilterSpec FilterProofs ChainProofs PredProofs LzwProofs.
Local Open Scope Z_scope.

Lemma hex_marker_refuted : exists text data, hex_encodes text data /\ forall out, yields hex_dec [text] out -> out <> data.
Proof.
  exists (bs "41>"), [65]. split.
  - apply (hx_byte 52 49 [] 4 1 [62] []); try reflexivity. apply hx_eod.
  - intros out (w & R & C) E. vm_compute in R. apply ok_inj in R. subst w. vm_compute in C. congruence.
Qed.
(** An odd last digit right before the marker comes out right: the marker counts as a digit 0. *)
Lemma hex_odd_yields t d a va ws tail bl : hex_plain t d -> digit_value a = Some va -> forallb white ws = true ->
  forallb white tail = true -> concat bl = t ++ a :: ws ++ 62 :: tail -> yields hex_dec bl (d ++ [16 * va]).
Proof.
  intros P Ha Hw Ht E. apply (yields_one hex_dec (t ++ a :: ws ++ 62 :: tail)); [|apply hex_dec_seamless|exact E].
  assert (G : forall x, exists y w, hex_decode_block (x, true) (t ++ a :: ws ++ 62 :: tail) = ((y, true), w) /\ concat w = d ++ [16 * va]).
  { clear E. induction P as [|c t d Hc Hp IH|p q ws' vp vq t d Hp Hws Hq Hpl IH]; intro x.
    - cbn [app]. destruct (digit_facts a va Ha) as (Wa & Ra & Va & _).
      cbn [hex_decode_block]. rewrite Wa. cbn [snd]. rewrite hex_skip by exact Hw.
      change (62 :: tail) with ([62] ++ tail). cbn [app hex_decode_block]. change (is_ws 62) with false. cbn [snd fst].
      change (hex_or_0 62) with 0. rewrite Va.
      assert (Z.land va 15 = va) as ->.
      { change 15 with (Z.ones 4). rewrite Z.land_ones by lia. apply Z.mod_small. change (2 ^ 4) with 16. lia. }
      assert (u8 (Z.lor (Z.shiftl va 4) 0) = 16 * va) as ->.
      { rewrite Z.lor_0_r, Z.shiftl_mul_pow2 by lia. rewrite u8_id; change (2 ^ 4) with 16; [lia|]. unfold is_byte. lia. }
      rewrite <- (app_nil_r tail), hex_skip by exact Ht. cbn [hex_decode_block].
      eexists _, _. split; [reflexivity|]. reflexivity.
    - cbn [app hex_decode_block]. rewrite <- white_is_ws, Hc. apply IH.
    - replace ((p :: ws' ++ q :: t) ++ a :: ws ++ 62 :: tail) with (p :: ws' ++ q :: (t ++ a :: ws ++ 62 :: tail))
        by (rewrite <- !app_comm_cons, <- !app_assoc; reflexivity).
      destruct (hex_pair p q ws' vp vq x (t ++ a :: ws ++ 62 :: tail) Hp Hws Hq) as [d' E]. rewrite E.
      destruct (IH d') as (y & w & E2 & C). rewrite E2. exists y, ([16 * vp + vq] :: w).
      split; [reflexivity|]. cbn [concat app]. rewrite C. reflexivity. }
  destruct (G 0) as (y & w & R & C).
  exists w. unfold f_run. cbn [f_begin hex_dec bind f_blocks f_block]. rewrite R. cbn [bind f_end hex_dec snd].
  rewrite !app_nil_r. split; [reflexivity|exact C].
Qed.

Lemma std_names t : name_to_filter (std_filter t) = Ok t.
Proof. destruct t; vm_compute; reflexivity. Qed.
Lemma std_names_inv n t : name_to_filter n = Ok t -> n = std_filter t.
Proof.
  unfold name_to_filter. destruct (find _ filter_names) as [p|] eqn:E; [|discriminate]. intro H. apply ok_inj in H.
  apply find_some in E. destruct E as [I B]. apply beq_eq in B. subst n t.
  unfold filter_names in I. cbn [In] in I.
  repeat (destruct I as [<-|I]; [reflexivity|]). destruct I.
Qed.
Lemma resolve_says heap o v : resolve heap o = Some v <-> says heap o v.
Proof. destruct o; cbn; split; congruence. Qed.
Lemma resolve_none heap o : resolve heap o = None -> forall v, ~ says heap o v.
Proof. intros H v S. apply resolve_says in S. congruence. Qed.

Lemma filter_array_declares heap l : forall ts,
  filter_array heap l = Ok ts <-> Forall2 (fun x t => says heap x (OName (std_filter t))) l ts.
Proof.
  induction l as [|x l IH]; intro ts; cbn [filter_array].
  - split; intro H; [apply ok_inj in H; subst; constructor|inversion H; reflexivity].
  - split; intro H.
    + destruct (resolve heap x) as [o|] eqn:R; [|discriminate]. destruct o; try discriminate.
      destruct (name_to_filter n) as [t| | |] eqn:N; try discriminate. cbn [bind] in H.
      destruct (filter_array heap l) as [ts'| | |] eqn:F; try discriminate. cbn [bind] in H. apply ok_inj in H. subst ts.
      constructor; [|apply IH; reflexivity]. apply resolve_says. rewrite R. apply std_names_inv in N. congruence.
    + inversion H as [|x' t l' ts' Hx Hl]; subst. apply resolve_says in Hx. rewrite Hx, std_names. cbn [bind].
      apply IH in Hl. rewrite Hl. reflexivity.
Qed.

Lemma filter_dict heap d ts :
  create_filter_list heap (ODict d) = Ok ts <->
  match find (fun p => beq (fst p) (bs "Filter")) d with
  | None => ts = []
  | Some (_, entry) => declares heap entry ts \/ ((forall v, ~ says heap entry v) /\ ts = [])
  end.
Proof.
  unfold create_filter_list, find_key. destruct (find _ d) as [[k entry]|]; cbn [snd].
  - destruct (resolve heap entry) as [o|] eqn:R.
    + assert (S : says heap entry o) by (apply resolve_says; exact R).
      assert (U : forall v, says heap entry v -> v = o) by (intros v Hv; apply resolve_says in Hv; congruence).
      split.
      * intro H. left. destruct o; try discriminate.
        -- destruct (name_to_filter n) as [t| | |] eqn:N; try discriminate. cbn [bind] in H. apply ok_inj in H. subst ts.
           apply dc_name. apply std_names_inv in N. congruence.
        -- apply dc_array with l; [exact S|]. apply filter_array_declares. exact H.
      * intros [D|[N _]]; [|destruct (N o S)]. destruct D as [t Ht|l ts Hl Ha].
        -- apply U in Ht. subst o. rewrite std_names. reflexivity.
        -- apply U in Hl. subst o. apply filter_array_declares. exact Ha.
    + pose proof (resolve_none heap entry R) as N. split.
      * intro H. apply ok_inj in H. right. split; [exact N|congruence].
      * intros [D|[_ ->]]; [|reflexivity]. destruct D as [t Ht|l ts Hl Ha]; [destruct (N _ Ht)|destruct (N _ Hl)].
  - split; [intro H; apply ok_inj in H; congruence|intros ->; reflexivity].
Qed.

Lemma filter_name heap n ts : create_filter_list heap (OName n) = Ok ts <-> exists t, n = std_filter t /\ ts = [t].
Proof.
  cbn [create_filter_list]. split.
  - destruct (name_to_filter n) as [t| | |] eqn:N; try discriminate. cbn [bind]. intro H. apply ok_inj in H.
    exists t. apply std_names_inv in N. split; congruence.
  - intros (t & -> & ->). rewrite std_names. reflexivity.
Qed.

Lemma filter_array_object_refuted : exists heap entry ts,
  declares heap entry ts /\ ts <> [] /\ create_filter_list heap entry = Ok [].
Proof.
  exists (fun _ => None), (OArr [OName (bs "FlateDecode")]), [FFlate]. split; [|split; [discriminate|reflexivity]].
  apply dc_array with [OName (bs "FlateDecode")]; [reflexivity|]. repeat constructor.
Qed.

Lemma average_refuted : exists rows, Forall (fun tr => fst tr = 3 /\ bytes_ok (snd tr)) rows /\
  forall out, yields (pred_dec 13 1 8 1) [png_rows 1 [0] rows] out -> out <> concat (map snd rows).
Proof.
  exists [(3, [200]); (3, [100])]. split.
  - repeat constructor; cbn; lia.
  - intros out (w & R & C) E. vm_compute in R. apply ok_inj in R. subst w. vm_compute in C, E. congruence.
Qed.
Lemma subbyte_refuted : exists row, bytes_ok row /\
  forall out, yields (pred_dec 11 1 4 4) [png_rows (pixel_bytes 1 4) [0; 0] [(1, row)]] out -> out <> row.
Proof.
  exists [18; 52]. split.
  - repeat constructor; cbn; lia.
  - intros out (w & R & C) E. vm_compute in R. apply ok_inj in R. subst w. vm_compute in C, E. congruence.
Qed.
Lemma odd_row_refuted : exists row, bytes_ok row /\ Z.of_nat (length row) = row_bytes 1 1 12 /\
  forall out, yields (pred_dec 12 1 1 12) [png_rows (pixel_bytes 1 1) [0; 0] [(2, row)]] out -> out <> row.
Proof.
  exists [255; 240]. split; [|split].
  - repeat constructor; cbn; lia.
  - reflexivity.
  - intros out (w & R & C) E. vm_compute in R. apply ok_inj in R. subst w. vm_compute in C, E. congruence.
Qed.
Lemma predictor_undefined_refuted :
  f_run (pred_dec 14 1 4 4) [[4; 1]] = UB /\ f_run (pred_dec 12 65536 65536 1) [] = UB.
Proof. split; vm_compute; reflexivity. Qed.

Lemma rle_refuted : exists text data, run_length text data /\ forall out, yields rle_dec [text] out -> out <> data.
Proof.
  exists [1; 65; 66; 128], [65; 66]. split.
  - apply (rl_lit 1 [65; 66] [128] []); [lia|reflexivity|constructor].
  - intros out (w & R & C) E. vm_compute in R. apply ok_inj in R. subst w. vm_compute in C. congruence.
Qed.
Lemma rle_run_refuted : exists text data, run_length text data /\ forall out, yields rle_dec [text] out -> out <> data.
Proof.
  exists [254; 65; 128], [65; 65; 65]. split.
  - apply (rl_run 254 65 [128] []); [lia|constructor].
  - intros out (w & R & C) E. vm_compute in R. apply ok_inj in R. subst w. vm_compute in C. congruence.
Qed.

(** The example of ISO 32000 7.4.4.2 *)
Definition iso_lzw : list Z := [128; 11; 96; 80; 34; 12; 12; 133; 1].
Definition iso_lzw_data : list Z := [45; 45; 45; 45; 45; 65; 45; 45; 45; 66].
Lemma iso_lzw_stream : exists chunks, concat chunks = iso_lzw_data /\ lzw_stream 0 chunks (byte_bits iso_lzw).
Proof.
  exists ([[45]; [45; 45]; [45; 45]; [65]; [45; 45; 45]; [66]] ++ []). split; [reflexivity|].
  assert (E : byte_bits iso_lzw = bits (lzw_width 0) 256 ++
    (bits (lzw_width 0) (Z.of_nat 45) ++ bits (lzw_width 1) (Z.of_nat 258) ++ bits (lzw_width 2) (Z.of_nat 258) ++
     bits (lzw_width 3) (Z.of_nat 65) ++ bits (lzw_width 4) (Z.of_nat 259) ++ bits (lzw_width 5) (Z.of_nat 66) ++ []) ++
    (bits (lzw_width 6) 257 ++ [])).
  { vm_compute. reflexivity. }
  rewrite E. apply lz_clear.
  - repeat (eapply lz_chunk; [reflexivity|vm_compute; reflexivity|lia|]). apply lz_nil.
  - apply lz_eod.
Qed.
Lemma lzw_split_refuted : exists chunks a b, lzw_stream 0 chunks (byte_bits (a ++ b)) /\ bytes_ok (a ++ b) /\
  forall out, yields lzw_dec [a; b] out -> out <> concat chunks.
Proof.
  destruct iso_lzw_stream as (chunks & C & S). exists chunks, (firstn 4 iso_lzw), (skipn 4 iso_lzw).
  split; [exact S|]. split; [repeat constructor; cbn; lia|].
  rewrite C. intros out (w & R & Cw) E. vm_compute in R. first [discriminate R|apply ok_inj in R; subst w; vm_compute in Cw, E; congruence].
Qed.

Lemma a85_marker_split_refuted : exists data b1 b2, bytes_ok data /\ b1 ++ b2 = ascii85 data ++ bs "~>" /\
  forall out, yields a85_dec [b1; b2] out -> out <> data.
Proof.
  exists [65], (ascii85 [65] ++ [126]), [62]. split; [repeat constructor; cbn; lia|]. split; [reflexivity|].
  intros out (w & R & C) E. vm_compute in R. apply ok_inj in R. subst w. vm_compute in C. congruence.
Qed.

(** No encoder writes the end-of-data marker. *)
Lemma no_marker_refuted data bl out : bytes_ok data -> concat bl = data ->
  (yields hex_enc bl out -> ~ In 62 out) /\ (yields a85_enc bl out -> ~ In 126 out).
Proof.
  intros Hd E. split.
  - intros (w & R & C). unfold f_run in R. cbn [f_begin hex_enc bind] in R.
    assert (G : forall bl, bytes_ok (concat bl) -> exists w, f_blocks hex_enc tt bl = Ok (tt, w) /\ ~ In 62 (concat w)).
    { clear. induction bl as [|b bl IH]; intro H; [exists []; split; [reflexivity|auto]|].
      cbn [concat] in H. apply Forall_app in H. destruct H as [H1 H2]. destruct (IH H2) as (w & E & N).
      cbn [f_blocks f_block hex_enc bind]. change (f_blocks _ ?x bl) with (f_blocks hex_enc x bl). rewrite E. cbn [bind].
      eexists. split; [reflexivity|]. rewrite concat_app, in_app_iff. intros [I|I]; [|auto].
      unfold hex_encode_block in I. apply in_concat in I. destruct I as (l & I & J). apply in_map_iff in I.
      destruct I as (c & <- & I). rewrite Forall_forall in H1. specialize (H1 c I).
      pose proof (byte_check (fun c => negb (existsb (Z.eqb 62) (hex_byte c))) ltac:(vm_compute; reflexivity) c H1) as B.
      cbv beta in B. apply negb_true_iff in B. rewrite <- not_true_iff_false in B. apply B. apply existsb_exists.
      exists 62. split; [exact J|reflexivity]. }
    destruct (G bl ltac:(rewrite E; exact Hd)) as (w1 & E1 & N1).
    change (f_blocks _ ?x bl) with (f_blocks hex_enc x bl) in R. rewrite E1 in R. cbn [bind f_end hex_enc] in R.
    apply ok_inj in R. subst w. rewrite app_nil_r in C. subst out. exact N1.
  - intros (w & R & C). destruct (a85_enc_yields data Hd bl E) as (w2 & R2 & C2).
    rewrite R in R2. apply ok_inj in R2. subst w2. rewrite <- C, C2.
    pose proof (ascii85_alphabet data Hd) as A. rewrite Forall_forall in A. intro I. specialize (A _ I). cbv beta in A. lia.
Qed.

Lemma reading_chains ps data sizes : Forall (fun p => undoes (snd p) (fst p)) ps -> ps <> [] -> bytes_ok data ->
  Forall (fun n => (1 <= n)%nat) sizes ->
  exists text, chain_gives (encode_stack (map fst ps)) data text /\
  exists o e, decode_read (map snd ps) text sizes = Ok (o, e) /\ (exists r, data = o ++ r) /\ (e = true -> o = data) /\
    ((length data + length text + 2 <= length sizes)%nat -> e = true).
Proof.
  intros H N Hd Hs. destruct (chains_undo ps H data Hd) as (text & Ht & E & D). exists text. split; [exact E|].
  apply decode_reads; auto. destruct ps; [congruence|discriminate].
Qed.
