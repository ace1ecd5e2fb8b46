(** Proofs about images: the statements *)
From Coq Require Import String Lia.
From Verif Require Import Base TokModel WriteModel FilterModel DictProofs OwnModel OwnProofs LinkProofs EncryptModel StreamModel StreamSpec StreamProofs ChainProofs ImageModel ImageSpec ImageProofs ImageRowProofs.
Local Open Scope Z_scope.

Lemma find_get look k d v : dict_get k d = Some v -> (forall n g, v <> ORef n g) -> dict_find look k d = Some v.
Proof. intros G N. unfold dict_find, get_key. rewrite G. destruct v; try reflexivity. exfalso. exact (N n g eq_refl). Qed.

(** ** Setting *)
Lemma set_shows look img src w h f row : settable f -> sorted (i_dict img) -> 0 <= w -> 3 * w + 3 < 2 ^ 32 -> 0 <= h -> (row < 0 \/ bytes_of f * w <= row) -> h * stride f w row <= Z.of_nat (length src) ->
  exists img', set_pixels img src w h f row = Ok img' /\ i_w img' = w /\ i_h img' = h /\ eight_bits look img' w h /\
    Z.of_nat (length (i_data img')) = h * (bytes_of f * w) /\
    color_space look (i_dict img') = space_of (match f with FGray => true | _ => false end) /\ dict_find look (bs "Decode") (i_dict img') = None /\
    (forall x y, 0 <= x < w -> 0 <= y < h -> exists c, pixel f (stride f w row) src x y = Some c /\ shows look img' x y c) /\
    (forall k, ~ List.In k [bs "Width"; bs "Height"; bs "BitsPerComponent"; bs "ColorSpace"; bs "Decode"] -> dict_get k (i_dict img') = dict_get k (i_dict img)).
Proof.
  intros F SO W O H R L.
  assert (NU : f <> FUnknown) by (destruct F as [-> | [-> | ->]]; discriminate).
  assert (B3 : 1 <= bytes_of f <= 3) by (destruct F as [-> | [-> | ->]]; cbn; lia).
  assert (DR : default_row f w = Ok (aligned (bytes_of f * w))) by (apply aligned_row; [exact NU|exact W|nia]).
  assert (SF : bytes_of f * w <= stride f w row). { pose proof (aligned_le (bytes_of f * w) ltac:(nia)). unfold stride. destruct (row <? 0) eqn:E; lia. }
  destruct (set_rows_ok f w (stride f w row) F W ltac:(lia) SF (Z.to_nat h) src) as (b & SR & LB & PX); [rewrite Z2Nat.id by lia; exact L|]. rewrite Z2Nat.id in LB, PX by lia.
  set (space := match f with FGray => bs "DeviceGray" | _ => bs "DeviceRGB" end).
  set (d := erase_key (bs "Decode") (dict_add (bs "ColorSpace") (OName space) (dict_add (bs "BitsPerComponent") (ONum 8) (dict_add (bs "Height") (ONum h) (dict_add (bs "Width") (ONum w) (i_dict img)))))).
  assert (S4 : sorted (dict_add (bs "ColorSpace") (OName space) (dict_add (bs "BitsPerComponent") (ONum 8) (dict_add (bs "Height") (ONum h) (dict_add (bs "Width") (ONum w) (i_dict img)))))) by (repeat apply dict_add_sorted; exact SO).
  assert (G : forall k, dict_get k d = if beq k (bs "Decode") then None else if beq k (bs "ColorSpace") then Some (OName space) else if beq k (bs "BitsPerComponent") then Some (ONum 8) else
    if beq k (bs "Height") then Some (ONum h) else if beq k (bs "Width") then Some (ONum w) else dict_get k (i_dict img)).
  { intros k. unfold d. rewrite erase_get by exact S4. rewrite !dict_get_add by (repeat apply dict_add_sorted; exact SO). reflexivity. }
  assert (E8 : eight_bits look (mk_image w h d b) w h).
  { split; [|split]; (apply find_get; [cbn [i_dict]; rewrite G; reflexivity|discriminate]). }
  assert (DN : dict_find look (bs "Decode") d = None) by (unfold dict_find, get_key; rewrite G; reflexivity).
  assert (SP : dict_find look (bs "ColorSpace") d = Some (OName space)) by (apply find_get; [rewrite G; reflexivity|discriminate]).
  exists (mk_image w h d b). cbn [i_w i_h i_dict i_data]. split.
  { unfold set_pixels. rewrite DR. cbn [bind]. unfold stride in SR. destruct F as [-> | [-> | ->]]; rewrite SR; reflexivity. }
  split; [reflexivity|]. split; [reflexivity|]. split; [exact E8|]. split; [exact LB|]. split.
  { unfold color_space. rewrite SP. unfold space. destruct F as [-> | [-> | ->]]; reflexivity. }
  split; [exact DN|]. split.
  - intros x y X Y. destruct (pixel_there f (stride f w row) src x y h w F X Y SF L) as (c & P). exists c. split; [exact P|].
    specialize (PX x y X Y). rewrite P in PX. unfold file_color in PX. destruct F as [-> | [-> | ->]]; cbn [bytes_of] in PX.
    + destruct (byte_at b ((y * w + x) * 1)) as [g|] eqn:E; [|discriminate]. cbn [three] in PX. injection PX as <-.
      apply (Shows_gray look (mk_image w h d b) x y w h (fun s => s) g E8 X Y (Kept look (mk_image w h d b) DN)); [exact SP|]. unfold sample. cbn [i_data]. rewrite Z.add_0_r. exact E.
    + destruct (byte_at b ((y * w + x) * 3)) as [r|] eqn:E; [|discriminate]. destruct (byte_at b ((y * w + x) * 3 + 1)) as [g|] eqn:E1; [|discriminate]. destruct (byte_at b ((y * w + x) * 3 + 2)) as [bl|] eqn:E2; [|discriminate].
      cbn [three] in PX. injection PX as <-. apply (Shows_rgb look (mk_image w h d b) x y w h (fun s => s) r g bl E8 X Y (Kept look (mk_image w h d b) DN)); [exact SP| | |]; unfold sample; cbn [i_data]; rewrite ?Z.add_0_r; assumption.
    + destruct (byte_at b ((y * w + x) * 3)) as [r|] eqn:E; [|discriminate]. destruct (byte_at b ((y * w + x) * 3 + 1)) as [g|] eqn:E1; [|discriminate]. destruct (byte_at b ((y * w + x) * 3 + 2)) as [bl|] eqn:E2; [|discriminate].
      cbn [three] in PX. injection PX as <-. apply (Shows_rgb look (mk_image w h d b) x y w h (fun s => s) r g bl E8 X Y (Kept look (mk_image w h d b) DN)); [exact SP| | |]; unfold sample; cbn [i_data]; rewrite ?Z.add_0_r; assumption.
  - intros k K. rewrite G. repeat match goal with |- context [beq k ?q] => let B := fresh in destruct (beq k q) eqn:B; [exfalso; apply K; apply beq_eq in B; rewrite B; cbn [List.In]; auto 8|clear B] end. reflexivity.
Qed.
Lemma set_ends img src w h f row : settable f -> 0 <= w -> 3 * w + 3 < 2 ^ 32 -> 0 <= h -> (row < 0 \/ bytes_of f * w <= row) -> Z.of_nat (length src) < h * stride f w row -> set_pixels img src w h f row = Err EUnexpectedEOF.
Proof.
  intros F W O H R L.
  assert (NU : f <> FUnknown) by (destruct F as [-> | [-> | ->]]; discriminate).
  assert (B3 : 1 <= bytes_of f <= 3) by (destruct F as [-> | [-> | ->]]; cbn; lia).
  assert (DR : default_row f w = Ok (aligned (bytes_of f * w))) by (apply aligned_row; [exact NU|exact W|nia]).
  assert (SF : bytes_of f * w <= stride f w row). { pose proof (aligned_le (bytes_of f * w) ltac:(nia)). unfold stride. destruct (row <? 0) eqn:E; lia. }
  assert (E : forall n s, Z.of_nat (length s) < Z.of_nat n * stride f w row -> set_rows n f w (stride f w row) s = Err EUnexpectedEOF).
  { induction n as [|n IH]; intros s LS; [lia|]. cbn [set_rows]. destruct (Z.of_nat (length s) <? stride f w row) eqn:C; [reflexivity|].
    assert (0 <= stride f w row) by nia.
    destruct (pdf_line_ok f w (firstn (Z.to_nat (stride f w row)) s) F W ltac:(lia)) as (l & PL & _ & _); [rewrite firstn_length; lia|]. rewrite PL. cbn [bind]. rewrite IH; [reflexivity|]. rewrite skipn_length. nia. }
  unfold set_pixels. rewrite DR. cbn [bind]. specialize (E (Z.to_nat h) src). rewrite Z2Nat.id in E by lia. specialize (E L). unfold stride in E. destruct F as [-> | [-> | ->]]; rewrite E; reflexivity.
Qed.
Lemma set_narrow img src w h f row : settable f -> 3 * w + 3 < 2 ^ 32 -> 0 < h -> 0 <= row < bytes_of f * w -> row <= Z.of_nat (length src) -> set_pixels img src w h f row = UB.
Proof.
  intros F O H R L. assert (B3 : 1 <= bytes_of f <= 3) by (destruct F as [-> | [-> | ->]]; cbn; lia). assert (W : 0 < w) by nia.
  assert (NU : f <> FUnknown) by (destruct F as [-> | [-> | ->]]; discriminate).
  assert (DR : default_row f w = Ok (aligned (bytes_of f * w))) by (apply aligned_row; [exact NU|lia|nia]).
  assert (N : exists n, Z.to_nat h = S n) by (exists (Z.to_nat (h - 1)); lia). destruct N as (n & N).
  assert (P : pdf_line f w (firstn (Z.to_nat row) src) = UB).
  { assert (LL : Z.of_nat (length (firstn (Z.to_nat row) src)) = row) by (rewrite firstn_length; lia).
    destruct F as [-> | [-> | ->]]; cbn [bytes_of] in R; unfold pdf_line; rewrite ?(u32_small (3 * w)) by lia; rewrite ?Z.ltb_irrefl; rewrite span_out by lia; reflexivity. }
  unfold set_pixels. rewrite DR, N. cbn [bind]. destruct (row <? 0) eqn:E; [lia|].
  assert (S : set_rows (S n) f w row src = UB). { cbn [set_rows]. destruct (Z.of_nat (length src) <? row) eqn:C; [lia|]. rewrite P. reflexivity. }
  destruct F as [-> | [-> | ->]]; rewrite S; reflexivity.
Qed.

(** ** Decoding *)
Lemma rgb_space look img : entry_is look img (bs "ColorSpace") (OName (bs "DeviceRGB")) -> color_space look (i_dict img) = space_of false.
Proof. intros E. unfold color_space. rewrite E. reflexivity. Qed.
Lemma gray_space look img : entry_is look img (bs "ColorSpace") (OName (bs "DeviceGray")) -> color_space look (i_dict img) = space_of true.
Proof. intros E. unfold color_space. rewrite E. reflexivity. Qed.
Lemma covered_used f mask w h : covered f mask w h -> used_mask f mask = [] \/ w * h <= Z.of_nat (length mask).
Proof. intros [-> | [-> | [-> | [-> | H]]]]; auto. left. destruct f; reflexivity. Qed.
Lemma rgb_long w h data : 0 <= w -> 3 * w * h <= Z.of_nat (length data) -> long_enough false w h data.
Proof. intros W L i I. cbn [width_of]. assert (3 * w * (i + 1) <= 3 * w * h) by (apply Z.mul_le_mono_nonneg_l; lia). lia. Qed.
Lemma rgb_decoded look img mask f row room : eight_bits look img (i_w img) (i_h img) -> entry_is look img (bs "ColorSpace") (OName (bs "DeviceRGB")) -> dict_find look (bs "Decode") (i_dict img) = None ->
  (f = FRgb \/ f = FBgr \/ f = FRgba \/ f = FBgra) -> sound_row f (i_w img) row -> 0 <= i_h img -> 3 * i_w img * i_h img <= 2 ^ 32 -> 3 * i_w img * i_h img <= Z.of_nat (length (i_data img)) ->
  covered f mask (i_w img) (i_h img) -> match room with None => True | Some r => i_h img * stride f (i_w img) row <= r end ->
  exists out, decode_image look img mask f row room = Ok out /\ Z.of_nat (length out) = i_h img * stride f (i_w img) row /\
    forall x y, 0 <= x < i_w img -> 0 <= y < i_h img -> (exists c, shows look img x y c /\ pixel f (stride f (i_w img) row) out x y = Some c) /\
      opacity f (stride f (i_w img) row) out x y = veil f mask (i_w img) y x.
Proof.
  intros E8 SP DN F SR H O L C R. destruct SR as (W & SR'). assert (SR : sound_row f (i_w img) row) by (split; assumption).
  destruct (decode_ok look img mask false f row room) as (out & E & LO & P); try assumption; try (apply covered_used; assumption).
  - apply rgb_space. exact SP.
  - split; destruct F as [-> | [-> | [-> | ->]]]; discriminate.
  - apply rgb_long; [lia|exact L].
  - exists out. split; [exact E|]. split; [exact LO|]. intros x y X Y. destruct (P x y X Y) as [PX PO]. split; [|exact PO]. rewrite PX. unfold source.
    assert (T : forall k, 0 <= k < 3 -> exists b, byte_at (i_data img) ((y * i_w img + x) * 3 + k) = Some b).
    { intros k K. apply byte_at_in. assert (i_w img * (y + 1) <= i_w img * i_h img) by (apply Z.mul_le_mono_nonneg_l; lia). nia. }
    destruct (T 0) as (r & R0); [lia|]. destruct (T 1) as (g & G0); [lia|]. destruct (T 2) as (b & B0); [lia|].
    exists (r, g, b). split; [apply (Shows_rgb look img x y _ _ (fun s => s) r g b E8 X Y (Kept _ _ DN) SP R0 G0 B0)|].
    replace (3 * i_w img * y + 3 * x) with ((y * i_w img + x) * 3 + 0) by lia. replace ((y * i_w img + x) * 3 + 0 + 1) with ((y * i_w img + x) * 3 + 1) by lia. replace ((y * i_w img + x) * 3 + 0 + 2) with ((y * i_w img + x) * 3 + 2) by lia.
    rewrite R0, G0, B0. reflexivity.
Qed.
Lemma gray_decoded look img mask f row : eight_bits look img (i_w img) (i_h img) -> entry_is look img (bs "ColorSpace") (OName (bs "DeviceGray")) -> dict_find look (bs "Decode") (i_dict img) = None ->
  f <> FUnknown -> sound_row f (i_w img) row -> 0 <= i_h img <= 1 -> i_w img * i_h img <= Z.of_nat (length (i_data img)) -> covered f mask (i_w img) (i_h img) ->
  exists out, decode_image look img mask f row None = Ok out /\ Z.of_nat (length out) = i_h img * stride f (i_w img) row /\
    forall x y, 0 <= x < i_w img -> 0 <= y < i_h img -> (exists c, shows look img x y c /\ pixel f (stride f (i_w img) row) out x y = Some c) /\
      opacity f (stride f (i_w img) row) out x y = veil f mask (i_w img) y x.
Proof.
  intros E8 SP DN F SR H L C. destruct SR as (W & O2 & O3 & R'). assert (SR : sound_row f (i_w img) row) by (repeat split; assumption).
  destruct (decode_ok look img mask true f row None) as (out & E & LO & P); try assumption; try (apply covered_used; assumption); try lia.
  - apply gray_space. exact SP.
  - split; [exact F|discriminate].
  - nia.
  - intros i I. assert (i = 0) as -> by lia. assert (i_h img = 1) as HH by lia. rewrite HH in L. cbn [width_of]. lia.
  - exists out. split; [exact E|]. split; [exact LO|]. intros x y X Y. destruct (P x y X Y) as [PX PO]. split; [|exact PO]. rewrite PX. unfold source.
    assert (y = 0) as -> by lia. assert (i_h img = 1) as HH by lia. rewrite HH in L. destruct (byte_at_in (i_data img) x) as (g & G); [lia|].
    exists (g, g, g). split; [|replace (3 * i_w img * 0 + x) with x by lia; rewrite G; reflexivity].
    apply (Shows_gray look img x 0 _ _ (fun s => s) g E8 X Y (Kept _ _ DN) SP). unfold sample. replace ((0 * i_w img + x) * 1 + 0) with x by lia. exact G.
Qed.
Lemma gray_undefined look img mask f row : entry_is look img (bs "ColorSpace") (OName (bs "DeviceGray")) -> f <> FUnknown -> sound_row f (i_w img) row -> 2 <= i_h img -> 3 * i_w img * i_h img <= 2 ^ 32 ->
  Z.of_nat (length (i_data img)) = i_w img * i_h img -> decode_image look img mask f row None = UB.
Proof.
  intros SP F SR H O L. assert (SR0 := SR). destruct SR0 as (W & _ & O3 & _). apply (decode_undefined look img mask true f row (i_h img - 1)); try assumption.
  - apply gray_space. exact SP.
  - split; [exact F|discriminate].
  - lia.
  - intros scan. apply row_out; [split; [exact F|discriminate]|exact W|lia|exact O3|nia|]. cbn [width_of]. rewrite L. nia.
Qed.
Lemma short_undefined look img mask f row : entry_is look img (bs "ColorSpace") (OName (bs "DeviceRGB")) -> (f = FRgb \/ f = FBgr \/ f = FRgba \/ f = FBgra) -> sound_row f (i_w img) row -> 0 < i_h img -> 3 * i_w img * i_h img <= 2 ^ 32 ->
  Z.of_nat (length (i_data img)) < 3 * i_w img * i_h img -> decode_image look img mask f row None = UB.
Proof.
  intros SP F SR H O L. assert (SR0 := SR). destruct SR0 as (W & _ & O3 & _). assert (D : decodable false f) by (split; destruct F as [-> | [-> | [-> | ->]]]; discriminate).
  apply (decode_undefined look img mask false f row (i_h img - 1)); try assumption.
  - apply rgb_space. exact SP.
  - lia.
  - intros scan. apply row_out; [exact D|exact W|lia|exact O3|nia|]. cbn [width_of]. nia.
Qed.
Lemma mask_undefined look img mask f row : entry_is look img (bs "ColorSpace") (OName (bs "DeviceRGB")) -> (f = FRgba \/ f = FBgra) -> sound_row f (i_w img) row -> 0 < i_h img -> i_w img * i_h img <= 2 ^ 32 ->
  mask <> [] -> Z.of_nat (length mask) < i_w img * i_h img -> decode_image look img mask f row None = UB.
Proof.
  intros SP F SR H O M L. assert (SR0 := SR). destruct SR0 as (W & _ & O3 & _). assert (D : decodable false f) by (split; destruct F as [-> | ->]; discriminate).
  apply (decode_undefined look img mask false f row (i_h img - 1)); try assumption.
  - apply rgb_space. exact SP.
  - lia.
  - intros scan. destruct mask as [|m0 mask]; [congruence|]. replace (used_mask f (m0 :: mask)) with (m0 :: mask) by (destruct F as [-> | ->]; reflexivity). apply mask_out; [exact D|exact W|lia|nia|nia].
Qed.
Lemma wide_undefined look img mask f row : entry_is look img (bs "ColorSpace") (OName (bs "DeviceRGB")) -> (f = FRgba \/ f = FBgra) -> 4 * i_w img = 2 ^ 32 -> 0 < i_h img -> row <= 0 -> decode_image look img mask f row None = UB.
Proof.
  intros SP F W H R. assert (RS : row_size f (i_w img) row = Ok 0).
  { unfold row_size. replace (default_row f (i_w img)) with (@Ok Z 0) by (destruct F as [-> | ->]; cbn [default_row]; rewrite W; reflexivity). cbn [bind]. destruct (row <? 0) eqn:E; [reflexivity|]. assert (row = 0) as -> by lia. reflexivity. }
  unfold decode_image. rewrite RS. cbn [bind]. rewrite (rgb_space look img SP). cbn [space_of]. change (repeat 0 (Z.to_nat 0)) with (@nil Z).
  assert (N : exists n, Z.to_nat (i_h img) = S n) by (exists (Z.to_nat (i_h img - 1)); lia). destruct N as (n & ->).
  assert (U : fetch_row false f (i_w img) (i_data img) (used_mask f mask) 0 [] = UB); [|fold (used_mask f mask); cbn [fetch_rows]; rewrite U; reflexivity].
  assert (exists c, rgb_line f = Ok c /\ (forall r g b a, length (c r g b a) = 4%nat)) as (c & EC & LC) by (destruct F as [-> | ->]; (eexists; split; [reflexivity|]; reflexivity)).
  unfold fetch_row. rewrite EC. cbn [bind]. assert (U0 : forall z, 0 <= u32 z) by (intros z; unfold u32; apply Z.mod_pos_bound; lia).
  destruct (span_cases (i_data img) (u32 (0 * u32 (3 * i_w img))) (3 * i_w img)) as [-> | (s & -> & LS)]; [apply U0|lia|reflexivity|]. cbn [bind].
  assert (AL : match used_mask f mask with [] => Ok (repeat 255 (Z.to_nat (i_w img))) | _ => span_at (used_mask f mask) (u32 (0 * i_w img)) (i_w img) end = UB \/ exists a, match used_mask f mask with [] => Ok (repeat 255 (Z.to_nat (i_w img))) | _ => span_at (used_mask f mask) (u32 (0 * i_w img)) (i_w img) end = Ok a /\ Z.of_nat (length a) = i_w img).
  { destruct (used_mask f mask); [right; eexists; split; [reflexivity|]; rewrite repeat_length; lia|]. apply span_cases; [apply U0|lia]. }
  destruct AL as [-> | (a & -> & LA)]; [reflexivity|]. cbn [bind].
  assert (LO : length (conv3 c s a) = (4 * Z.to_nat (i_w img))%nat) by (apply conv3_length; [exact LC|lia|lia]).
  destruct (Nat.ltb_spec (length (@nil Z)) (length (conv3 c s a))) as [_|G]; [reflexivity|]. exfalso. cbn [length] in G. lia.
Qed.
Lemma no_gray look img mask row room : entry_is look img (bs "ColorSpace") (OName (bs "DeviceRGB")) -> 0 < i_h img -> exists e, decode_image look img mask FGray row room = Err e.
Proof.
  intros SP H. unfold decode_image. destruct (row_size FGray (i_w img) row) as [n|e| |] eqn:E; cbn [bind].
  - rewrite (rgb_space look img SP). assert (N : exists n, Z.to_nat (i_h img) = S n) by (exists (Z.to_nat (i_h img - 1)); lia). destruct N as (m & ->). eexists. reflexivity.
  - eauto.
  - unfold row_size in E. cbn [default_row bind] in E. destruct (row <? 0); [discriminate|]. destruct (row <? _); discriminate.
  - unfold row_size in E. cbn [default_row bind] in E. destruct (row <? 0); [discriminate|]. destruct (row <? _); discriminate.
Qed.
Lemma buffer_decoded look img mask f row old : eight_bits look img (i_w img) (i_h img) -> entry_is look img (bs "ColorSpace") (OName (bs "DeviceRGB")) -> dict_find look (bs "Decode") (i_dict img) = None ->
  (f = FRgb \/ f = FBgr \/ f = FRgba \/ f = FBgra) -> sound_row f (i_w img) row -> 0 < i_h img -> 3 * i_w img * i_h img <= 2 ^ 32 -> 3 * i_w img * i_h img <= Z.of_nat (length (i_data img)) ->
  covered f mask (i_w img) (i_h img) -> aligned (bytes_of f * i_w img) * i_h img < 2 ^ 32 ->
  if stride f (i_w img) row =? aligned (bytes_of f * i_w img) then exists out, decode_buffer look img mask f row old = Ok out /\ Z.of_nat (length out) = i_h img * stride f (i_w img) row /\
      forall x y, 0 <= x < i_w img -> 0 <= y < i_h img -> exists c, shows look img x y c /\ pixel f (stride f (i_w img) row) out x y = Some c
  else decode_buffer look img mask f row old = Err EValueOutOfRange.
Proof.
  intros E8 SP DN F SR H O L C B. assert (SR0 := SR). destruct SR0 as (W & O2 & O3 & RR). assert (NU : f <> FUnknown) by (destruct F as [-> | [-> | [-> | ->]]]; discriminate).
  assert (P0 : 0 <= bytes_of f * i_w img) by (destruct f; cbn [bytes_of]; lia). pose proof (aligned_le _ P0) as AL.
  assert (BS : buffer_size f (i_w img) (i_h img) = Ok (aligned (bytes_of f * i_w img) * i_h img)).
  { unfold buffer_size. rewrite aligned_row by (try assumption; lia). cbn [bind]. rewrite u32_small; [reflexivity|nia]. }
  unfold decode_buffer. rewrite BS. cbn [bind]. destruct (stride f (i_w img) row =? aligned (bytes_of f * i_w img)) eqn:E.
  - apply Z.eqb_eq in E. destruct (rgb_decoded look img mask f row (Some (aligned (bytes_of f * i_w img) * i_h img))) as (out & EO & LO & P); try assumption; [lia|rewrite E; lia|].
    rewrite EO. cbn [bind]. assert (RE : skipn (length out) (firstn (Z.to_nat (aligned (bytes_of f * i_w img) * i_h img)) (old ++ repeat 0 (Z.to_nat (aligned (bytes_of f * i_w img) * i_h img)))) = []).
    { apply skipn_all2. rewrite firstn_length. rewrite E in LO. lia. }
    rewrite RE, app_nil_r. exists out. split; [reflexivity|]. split; [exact LO|]. intros x y X Y. apply (proj1 (P x y X Y)).
  - apply Z.eqb_neq in E. assert (GT : aligned (bytes_of f * i_w img) < stride f (i_w img) row) by (unfold stride in *; destruct (row <? 0) eqn:N; [congruence|lia]).
    rewrite (decode_full look img mask false f row); [reflexivity|apply rgb_space; exact SP| | | | | | |].
    + split; destruct F as [-> | [-> | [-> | ->]]]; discriminate.
    + exact SR.
    + lia.
    + exact O.
    + apply rgb_long; [lia|exact L].
    + apply covered_used. exact C.
    + nia.
Qed.

(** ** Raw data *)
Lemma raw_set z blocks i s : exists d, set_raw z blocks i s = (Ok tt, mk_sobj (match n_filters i with [] => d | fs => set_filter fs d end) (concat blocks) []) /\
  d = erase_key (bs "Filter") (match n_array i with [] => dict_add (bs "ColorSpace") (OName (n_space i)) | l => dict_add (bs "ColorSpace") (OArr l) end
    (match n_decode i with [] => erase_key (bs "Decode") | l => dict_add (bs "Decode") (OArr l) end
      (dict_add (bs "BitsPerComponent") (ONum (n_bits i)) (dict_add (bs "Height") (ONum (n_h i)) (dict_add (bs "Width") (ONum (n_w i)) (sdict s)))))).
Proof.
  eexists. split; [|reflexivity]. unfold set_raw, set_data. cbn [encoders]. unfold encoded. change (encode_stack []) with (@nil filt). rewrite chain_nil. cbn [bind sdict sdata sfilters set_filter].
  destruct (n_array i), (n_decode i); reflexivity.
Qed.
