(** Proofs about images: all rows *)
From Coq Require Import String Lia.
From Verif Require Import Base TokModel FilterModel DictProofs OwnModel OwnProofs LinkProofs EncryptModel StreamModel ChainProofs ImageModel ImageSpec ImageProofs.
Local Open Scope Z_scope.

Section Rows.
Variables (size : nat) (gray : bool) (f : pixfmt) (w : Z) (data mask : list Z) (h : Z) (Q : Z -> list Z -> Prop).
Hypothesis each : forall i scan, 0 <= i < h -> length scan = size -> exists s, fetch_row gray f w data mask i scan = Ok s /\ length s = size /\ Q i s.

Lemma rows_ok : forall n i room scan, 0 <= i -> i + Z.of_nat n <= h -> length scan = size -> match room with None => True | Some r => Z.of_nat n * Z.of_nat size <= r end ->
  exists out, fetch_rows n gray f w data mask i room scan = Ok out /\ length out = (n * size)%nat /\ forall y, (y < n)%nat -> Q (i + Z.of_nat y) (firstn size (skipn (y * size) out)).
Proof.
  induction n as [|n IH]; intros i room scan I N L R.
  { exists []. split; [reflexivity|]. split; [reflexivity|]. intros; lia. }
  destruct (each i scan) as (s & E & LS & QS); [lia|exact L|]. cbn [fetch_rows]. rewrite E. cbn [bind].
  destruct (IH (i + 1) (option_map (fun r => r - Z.of_nat (length s)) room) s) as (t & ET & LT & QT); [lia|lia|exact LS| |].
  { destruct room as [r|]; cbn [option_map]; [|exact Logic.I]. rewrite LS. nia. }
  assert (G : match room with Some r => r <? Z.of_nat (length s) | None => false end = false).
  { destruct room as [r|]; [|reflexivity]. apply Z.ltb_ge. rewrite LS. nia. }
  rewrite G, ET. cbn [bind]. eexists. split; [reflexivity|]. split; [rewrite app_length; lia|]. intros y Y. destruct y as [|y].
  - cbn [Nat.mul skipn]. rewrite firstn_app, LS, Nat.sub_diag, firstn_O, app_nil_r, firstn_all2 by lia. rewrite Z.add_0_r. exact QS.
  - replace (i + Z.of_nat (S y)) with (i + 1 + Z.of_nat y) by lia. rewrite skipn_app, (skipn_all2 s) by nia. cbn [app]. replace (S y * size - length s)%nat with (y * size)%nat by (rewrite LS; lia). apply QT. lia.
Qed.
Lemma rows_full : forall n i r scan, 0 <= i -> i + Z.of_nat n <= h -> length scan = size -> 0 <= r < Z.of_nat n * Z.of_nat size -> fetch_rows n gray f w data mask i (Some r) scan = Err EValueOutOfRange.
Proof.
  induction n as [|n IH]; intros i r scan I N L R; [lia|].
  destruct (each i scan) as (s & E & LS & QS); [lia|exact L|]. cbn [fetch_rows]. rewrite E. cbn [bind option_map].
  destruct (r <? Z.of_nat (length s)) eqn:C; [reflexivity|]. rewrite IH; [reflexivity|lia|lia|exact LS|rewrite LS in *; nia].
Qed.
End Rows.
Lemma rows_undefined size gray f w data mask h : (forall i scan, 0 <= i < h -> length scan = size -> fetch_row gray f w data mask i scan = UB \/ exists s, fetch_row gray f w data mask i scan = Ok s /\ length s = size) ->
  forall k, (forall scan, length scan = size -> fetch_row gray f w data mask k scan = UB) -> forall n i scan, 0 <= i <= k -> k < i + Z.of_nat n <= h -> length scan = size -> fetch_rows n gray f w data mask i None scan = UB.
Proof.
  intros A k K. induction n as [|n IH]; intros i scan I N L; [lia|]. cbn [fetch_rows].
  destruct (Z.eq_dec i k) as [->|D]; [rewrite K by exact L; reflexivity|].
  destruct (A i scan) as [-> | (s & -> & LS)]; [lia|exact L|reflexivity|]. cbn [bind option_map]. rewrite IH; [reflexivity|lia|lia|exact LS].
Qed.
Lemma row_cases gray f w data mask i scan : decodable gray f -> 0 <= w -> bytes_of f * w <= Z.of_nat (length scan) ->
  fetch_row gray f w data mask i scan = UB \/ exists s, fetch_row gray f w data mask i scan = Ok s /\ length s = length scan.
Proof.
  intros [D1 D2] W SC. assert (U0 : forall z, 0 <= u32 z) by (intros z; unfold u32; apply Z.mod_pos_bound; lia).
  assert (AL : match mask with [] => Ok (repeat 255 (Z.to_nat w)) | _ => span_at mask (u32 (i * w)) w end = UB \/ exists a, match mask with [] => Ok (repeat 255 (Z.to_nat w)) | _ => span_at mask (u32 (i * w)) w end = Ok a /\ Z.of_nat (length a) = w).
  { destruct mask; [right; eexists; split; [reflexivity|]; rewrite repeat_length; lia|]. apply span_cases; [apply U0|exact W]. }
  unfold fetch_row. destruct gray.
  - assert (exists c, gray_line f = Ok c /\ (forall g a, length (c g a) = Z.to_nat (bytes_of f))) as (c & -> & LC) by (destruct f; try congruence; (eexists; split; [reflexivity|]; reflexivity)).
    cbn [bind]. destruct (span_cases data (u32 (i * u32 (3 * w))) w) as [-> | (s & -> & LS)]; [apply U0|exact W|left; reflexivity|]. cbn [bind].
    destruct AL as [-> | (a & -> & LA)]; [left; reflexivity|]. cbn [bind].
    assert (LO : length (conv1 c s a) = (Z.to_nat (bytes_of f) * Z.to_nat w)%nat) by (apply conv1_length; [exact LC|lia|lia]).
    destruct (length scan <? length (conv1 c s a))%nat eqn:E; [left; reflexivity|]. right. eexists. split; [reflexivity|]. apply padded. apply Nat.ltb_ge in E. exact E.
  - assert (exists c, rgb_line f = Ok c /\ (forall r g b a, length (c r g b a) = Z.to_nat (bytes_of f))) as (c & -> & LC) by (specialize (D2 eq_refl); destruct f; try congruence; (eexists; split; [reflexivity|]; reflexivity)).
    cbn [bind]. destruct (span_cases data (u32 (i * u32 (3 * w))) (3 * w)) as [-> | (s & -> & LS)]; [apply U0|lia|left; reflexivity|]. cbn [bind].
    destruct AL as [-> | (a & -> & LA)]; [left; reflexivity|]. cbn [bind].
    destruct (length scan <? length (conv3 c s a))%nat eqn:E; [left; reflexivity|]. right. eexists. split; [reflexivity|]. apply padded. apply Nat.ltb_ge in E. exact E.
Qed.
Lemma row_out gray f w data mask i scan : decodable gray f -> 0 < w -> 0 <= i -> 3 * w < 2 ^ 32 -> 3 * w * i < 2 ^ 32 -> Z.of_nat (length data) < 3 * w * i + width_of gray * w -> fetch_row gray f w data mask i scan = UB.
Proof.
  intros [D1 D2] W I O3 O L. assert (U : u32 (i * u32 (3 * w)) = 3 * w * i). { rewrite (u32_small (3 * w)) by lia. rewrite u32_small; [lia|]. nia. }
  unfold fetch_row. rewrite U. destruct gray; cbn [width_of] in L.
  - rewrite span_out by lia. destruct f; try congruence; reflexivity.
  - rewrite span_out by lia. specialize (D2 eq_refl). destruct f; try congruence; reflexivity.
Qed.
Lemma mask_out gray f w data m0 mask i scan : decodable gray f -> 0 < w -> 0 <= i -> w * i < 2 ^ 32 -> Z.of_nat (length (m0 :: mask)) < w * i + w -> fetch_row gray f w data (m0 :: mask) i scan = UB.
Proof.
  intros [D1 D2] W I O L. assert (U0 : forall z, 0 <= u32 z) by (intros z; unfold u32; apply Z.mod_pos_bound; lia).
  unfold fetch_row. rewrite (span_out (m0 :: mask)); [|lia|rewrite u32_small by nia; lia]. destruct gray.
  - destruct (span_cases data (u32 (i * u32 (3 * w))) w) as [-> | (s & -> & _)]; [apply U0|lia| |]; destruct f; try congruence; reflexivity.
  - specialize (D2 eq_refl). destruct (span_cases data (u32 (i * u32 (3 * w))) (3 * w)) as [-> | (s & -> & _)]; [apply U0|lia| |]; destruct f; try congruence; reflexivity.
Qed.

(** ** Whole images *)
Definition space_of (gray : bool) : cspace := if gray then CGray else CRgb.
Lemma row_size_ok f w row : f <> FUnknown -> sound_row f w row -> row_size f w row = Ok (stride f w row).
Proof.
  intros N (W & O & O3 & R). unfold row_size. rewrite aligned_row by (try assumption; lia). cbn [bind]. unfold stride. destruct (row <? 0) eqn:E; [reflexivity|].
  assert (B : 0 <= bytes_of f * w) by (destruct f; cbn [bytes_of]; lia). pose proof (aligned_le _ B).
  unfold s32. rewrite u32_small by lia. destruct (aligned (bytes_of f * w) <? 2 ^ 31) eqn:F; [|lia]. destruct (row <? aligned (bytes_of f * w)) eqn:G; [lia|reflexivity].
Qed.
Lemma stride_fits f w row : sound_row f w row -> bytes_of f * w <= stride f w row.
Proof. intros (W & O & O3 & R). assert (B : 0 <= bytes_of f * w) by (destruct f; cbn [bytes_of]; lia). pose proof (aligned_le _ B). unfold stride. destruct (row <? 0) eqn:E; lia. Qed.
Lemma pixel_row f size out x y : 0 <= size -> 0 <= x -> 0 <= y -> bytes_of f * x + bytes_of f <= size ->
  pixel f 0 (firstn (Z.to_nat size) (skipn (Z.to_nat y * Z.to_nat size) out)) x 0 = pixel f size out x y /\ opacity f 0 (firstn (Z.to_nat size) (skipn (Z.to_nat y * Z.to_nat size) out)) x 0 = opacity f size out x y.
Proof.
  intros S X Y B. assert (E : forall j, 0 <= j < bytes_of f -> byte_at (firstn (Z.to_nat size) (skipn (Z.to_nat y * Z.to_nat size) out)) (0 * 0 + bytes_of f * x + j) = byte_at out (y * size + bytes_of f * x + j)).
  { intros j J. rewrite byte_at_firstn by nia. replace (Z.to_nat y * Z.to_nat size)%nat with (Z.to_nat (y * size)) by nia. rewrite byte_at_skipn by nia. f_equal. lia. }
  unfold pixel, opacity. destruct f; cbn [bytes_of] in E; rewrite ?E by lia; auto.
Qed.
Definition used_mask (f : pixfmt) (mask : list Z) : list Z := match f with FRgba | FBgra => mask | _ => [] end.
Lemma veil_used f mask w i x : veil f (used_mask f mask) w i x = veil f mask w i x.
Proof. destruct f; reflexivity. Qed.
Definition long_enough (gray : bool) (w h : Z) (data : list Z) : Prop := forall i, 0 <= i < h -> 3 * w * i + width_of gray * w <= Z.of_nat (length data).
Lemma each_row gray f w h data mask size : decodable gray f -> 0 < w -> 3 * w < 2 ^ 32 -> 3 * w * h <= 2 ^ 32 -> bytes_of f * w <= Z.of_nat size -> long_enough gray w h data -> (mask = [] \/ w * h <= Z.of_nat (length mask)) ->
  forall i scan, 0 <= i < h -> length scan = size -> exists s, fetch_row gray f w data mask i scan = Ok s /\ length s = size /\
    (forall x, 0 <= x < w -> pixel f 0 s x 0 = source gray w data i x /\ opacity f 0 s x 0 = veil f mask w i x).
Proof.
  intros D W O3 O B L M i scan I S. assert (HI : w * (i + 1) <= w * h) by (apply Z.mul_le_mono_nonneg_l; lia).
  destruct (row_ok gray f w data mask i scan) as (s & E & LS & P); try assumption; try lia.
  - destruct gray; cbn [width_of]; lia.
  - apply L. exact I.
  - destruct M as [M|M]; [left; exact M|right; lia].
  - exists s. split; [exact E|]. split; [lia|exact P].
Qed.
Lemma decode_ok look img mask gray f row room : color_space look (i_dict img) = space_of gray -> decodable gray f -> sound_row f (i_w img) row -> 0 <= i_h img -> 3 * i_w img * i_h img <= 2 ^ 32 ->
  long_enough gray (i_w img) (i_h img) (i_data img) -> (used_mask f mask = [] \/ i_w img * i_h img <= Z.of_nat (length mask)) -> match room with None => True | Some r => i_h img * stride f (i_w img) row <= r end ->
  exists out, decode_image look img mask f row room = Ok out /\ Z.of_nat (length out) = i_h img * stride f (i_w img) row /\
    forall x y, 0 <= x < i_w img -> 0 <= y < i_h img -> pixel f (stride f (i_w img) row) out x y = source gray (i_w img) (i_data img) y x /\ opacity f (stride f (i_w img) row) out x y = veil f mask (i_w img) y x.
Proof.
  intros C D SR H O L M R. destruct (SR) as (W & O2 & O3 & _). pose proof (stride_fits _ _ _ SR) as SF. set (size := stride f (i_w img) row) in *.
  assert (S0 : 0 <= size) by (assert (0 <= bytes_of f * i_w img) by (destruct f; cbn [bytes_of]; lia); lia).
  destruct (rows_ok (Z.to_nat size) gray f (i_w img) (i_data img) (used_mask f mask) (i_h img) (fun i s => forall x, 0 <= x < i_w img -> pixel f 0 s x 0 = source gray (i_w img) (i_data img) i x /\ opacity f 0 s x 0 = veil f (used_mask f mask) (i_w img) i x))
    with (n := Z.to_nat (i_h img)) (i := 0) (room := room) (scan := repeat 0 (Z.to_nat size)) as (out & E & LO & P).
  - apply each_row; try assumption; [lia|]. destruct M as [M|M]; [left; exact M|]. destruct f; cbn [used_mask]; auto.
  - lia.
  - lia.
  - apply repeat_length.
  - destruct room; [|exact Logic.I]. rewrite !Z2Nat.id by lia. exact R.
  - exists out. split.
    { unfold decode_image. rewrite (row_size_ok f _ row (proj1 D) SR). cbn [bind]. rewrite C. fold size. destruct gray; exact E. }
    split; [rewrite LO, Nat2Z.inj_mul, !Z2Nat.id by lia; reflexivity|]. intros x y X Y. specialize (P (Z.to_nat y) ltac:(lia) x X). rewrite Z2Nat.id, Z.add_0_l in P by lia.
    assert (BX : bytes_of f * (x + 1) <= bytes_of f * i_w img) by (apply Z.mul_le_mono_nonneg_l; [destruct f; cbn [bytes_of]; lia|lia]).
    destruct (pixel_row f size out x y) as [PX PO]; try lia. rewrite <- PX, <- PO. rewrite veil_used in P. exact P.
Qed.
Lemma decode_full look img mask gray f row r : color_space look (i_dict img) = space_of gray -> decodable gray f -> sound_row f (i_w img) row -> 0 <= i_h img -> 3 * i_w img * i_h img <= 2 ^ 32 ->
  long_enough gray (i_w img) (i_h img) (i_data img) -> (used_mask f mask = [] \/ i_w img * i_h img <= Z.of_nat (length mask)) -> 0 <= r < i_h img * stride f (i_w img) row ->
  decode_image look img mask f row (Some r) = Err EValueOutOfRange.
Proof.
  intros C D SR H O L M R. destruct (SR) as (W & O2 & O3 & _). pose proof (stride_fits _ _ _ SR) as SF. set (size := stride f (i_w img) row) in *.
  assert (S0 : 0 <= size) by (assert (0 <= bytes_of f * i_w img) by (destruct f; cbn [bytes_of]; lia); lia).
  unfold decode_image. rewrite (row_size_ok f _ row (proj1 D) SR). cbn [bind]. rewrite C. fold size.
  assert (E : fetch_rows (Z.to_nat (i_h img)) gray f (i_w img) (i_data img) (used_mask f mask) 0 (Some r) (repeat 0 (Z.to_nat size)) = Err EValueOutOfRange); [|destruct gray; exact E].
  apply (rows_full (Z.to_nat size) gray f (i_w img) (i_data img) (used_mask f mask) (i_h img) (fun i s => forall x, 0 <= x < i_w img -> pixel f 0 s x 0 = source gray (i_w img) (i_data img) i x /\ opacity f 0 s x 0 = veil f (used_mask f mask) (i_w img) i x)).
  - apply each_row; try assumption; [lia|]. destruct M as [M|M]; [left; exact M|]. destruct f; cbn [used_mask]; auto.
  - lia.
  - lia.
  - apply repeat_length.
  - rewrite !Z2Nat.id by lia. exact R.
Qed.
Lemma decode_undefined look img mask gray f row k : color_space look (i_dict img) = space_of gray -> decodable gray f -> sound_row f (i_w img) row -> 0 <= k < i_h img ->
  (forall scan, fetch_row gray f (i_w img) (i_data img) (used_mask f mask) k scan = UB) -> decode_image look img mask f row None = UB.
Proof.
  intros C D SR K U. destruct (SR) as (W & O2 & O3 & _). pose proof (stride_fits _ _ _ SR) as SF. set (size := stride f (i_w img) row) in *.
  assert (S0 : 0 <= size) by (assert (0 <= bytes_of f * i_w img) by (destruct f; cbn [bytes_of]; lia); lia).
  unfold decode_image. rewrite (row_size_ok f _ row (proj1 D) SR). cbn [bind]. rewrite C. fold size.
  assert (E : fetch_rows (Z.to_nat (i_h img)) gray f (i_w img) (i_data img) (used_mask f mask) 0 None (repeat 0 (Z.to_nat size)) = UB); [|destruct gray; exact E].
  apply (rows_undefined (Z.to_nat size) gray f (i_w img) (i_data img) (used_mask f mask) (i_h img)) with (k := k).
  - intros i scan I LS. destruct (row_cases gray f (i_w img) (i_data img) (used_mask f mask) i scan) as [E | (s & E & L)]; [exact D|lia|lia|left; exact E|right; exists s; split; [exact E|lia]].
  - intros scan _. apply U.
  - lia.
  - lia.
  - apply repeat_length.
Qed.
