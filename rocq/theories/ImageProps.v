(** Images *)
From Coq Require Import String Lia.
From Verif Require Import Base TokModel WriteModel FilterModel FilterSpec DictProofs OwnModel OwnProofs LinkProofs ObjSpec StreamModel StreamSpec StreamProofs ImageModel ImageSpec ImageProofs ImageRowProofs ImagePropLemmas.
Local Open Scope Z_scope.
Local Notation dict := (list (list Z * obj)) (only parsing).

(** ** C147 *)
(** An image that is set from a buffer shows the pixels of the buffer and has their number; other entries are kept.
    Missing: the formats with transparency, and rows shorter than the pixels, see below; sizes beyond 32 bits. *)
Theorem C147_set_partial look img src w h f row : settable f -> sorted (i_dict img) -> 0 <= w -> 3 * w + 3 < 2 ^ 32 -> 0 <= h -> (row < 0 \/ bytes_of f * w <= row) -> h * stride f w row <= Z.of_nat (length src) ->
  exists img', set_pixels img src w h f row = Ok img' /\ eight_bits look img' w h /\ Z.of_nat (length (i_data img')) = h * (bytes_of f * w) /\
    (forall x y, 0 <= x < w -> 0 <= y < h -> exists c, pixel f (stride f w row) src x y = Some c /\ shows look img' x y c) /\
    (forall k, ~ List.In k [bs "Width"; bs "Height"; bs "BitsPerComponent"; bs "ColorSpace"; bs "Decode"] -> dict_get k (i_dict img') = dict_get k (i_dict img)).
Proof.
  intros F SO W O H R L. destruct (set_shows look img src w h f row F SO W O H R L) as (i & E & _ & _ & E8 & LD & _ & _ & P & K). exists i. auto.
Qed.
Print Assumptions C147_set_partial.
(** Data that end too early are an error. *)
Theorem C147_ends img src w h f row : settable f -> 0 <= w -> 3 * w + 3 < 2 ^ 32 -> 0 <= h -> (row < 0 \/ bytes_of f * w <= row) -> Z.of_nat (length src) < h * stride f w row -> set_pixels img src w h f row = Err EUnexpectedEOF.
Proof. exact (set_ends img src w h f row). Qed.
Print Assumptions C147_ends.
(** Rows that do not hold the pixels are not noticed: what follows them in memory is read. *)
Theorem C147_narrow_refuted img src w h f row : settable f -> 3 * w + 3 < 2 ^ 32 -> 0 < h -> 0 <= row < bytes_of f * w -> row <= Z.of_nat (length src) -> set_pixels img src w h f row = UB.
Proof. exact (set_narrow img src w h f row). Qed.
Print Assumptions C147_narrow_refuted.
(** Formats with transparency cannot be set. *)
Theorem C147_transparent_refuted img src w h f row : f = FRgba \/ f = FBgra -> set_pixels img src w h f row = Err ENotImplemented.
Proof. intros [-> | ->]; reflexivity. Qed.
Print Assumptions C147_transparent_refuted.

(** Two rows of two pixels with two bytes of padding *)
Definition blank : image := mk_image 0 0 [(bs "Decode", OArr [ONum 1; ONum 0]); (bs "Type", OName (bs "XObject"))] [].
Example C147_case : set_pixels blank [1; 2; 3; 4; 5; 6; 0; 0; 7; 8; 9; 10; 11; 12; 0; 0] 2 2 FBgr (-1) =
  Ok (mk_image 2 2 [(bs "BitsPerComponent", ONum 8); (bs "ColorSpace", OName (bs "DeviceRGB")); (bs "Height", ONum 2); (bs "Type", OName (bs "XObject")); (bs "Width", ONum 2)] [3; 2; 1; 6; 5; 4; 9; 8; 7; 12; 11; 10])
  /\ pixel FBgr 8 [1; 2; 3; 4; 5; 6; 0; 0; 7; 8; 9; 10; 11; 12; 0; 0] 1 1 = Some (12, 11, 10).
Proof. vm_compute. auto. Qed.

(** ** C148 *)
(** Decoding an image of three components gives a buffer with the pixels that the image shows, opaque as its soft mask says.
    Missing: images of one component beyond the first row, other numbers of bits, arrays for decoding, and data or masks that
    are too short, see below; sizes beyond 32 bits; media filters. *)
Theorem C148_rgb_partial look img mask f row : eight_bits look img (i_w img) (i_h img) -> entry_is look img (bs "ColorSpace") (OName (bs "DeviceRGB")) -> dict_find look (bs "Decode") (i_dict img) = None ->
  (f = FRgb \/ f = FBgr \/ f = FRgba \/ f = FBgra) -> sound_row f (i_w img) row -> 0 <= i_h img -> 3 * i_w img * i_h img <= 2 ^ 32 -> 3 * i_w img * i_h img <= Z.of_nat (length (i_data img)) ->
  covered f mask (i_w img) (i_h img) ->
  exists out, decode_image look img mask f row None = Ok out /\ Z.of_nat (length out) = i_h img * stride f (i_w img) row /\
    forall x y, 0 <= x < i_w img -> 0 <= y < i_h img -> (exists c, shows look img x y c /\ pixel f (stride f (i_w img) row) out x y = Some c) /\
      opacity f (stride f (i_w img) row) out x y = veil f mask (i_w img) y x.
Proof. intros. apply rgb_decoded; auto. Qed.
Print Assumptions C148_rgb_partial.
(** So does an image of one component with a single row. *)
Theorem C148_gray_partial look img mask f row : eight_bits look img (i_w img) (i_h img) -> entry_is look img (bs "ColorSpace") (OName (bs "DeviceGray")) -> dict_find look (bs "Decode") (i_dict img) = None ->
  f <> FUnknown -> sound_row f (i_w img) row -> 0 <= i_h img <= 1 -> i_w img * i_h img <= Z.of_nat (length (i_data img)) -> covered f mask (i_w img) (i_h img) ->
  exists out, decode_image look img mask f row None = Ok out /\ Z.of_nat (length out) = i_h img * stride f (i_w img) row /\
    forall x y, 0 <= x < i_w img -> 0 <= y < i_h img -> (exists c, shows look img x y c /\ pixel f (stride f (i_w img) row) out x y = Some c) /\
      opacity f (stride f (i_w img) row) out x y = veil f mask (i_w img) y x.
Proof. exact (gray_decoded look img mask f row). Qed.
Print Assumptions C148_gray_partial.
(** Pixels that are set are decoded, in whatever order of the components. *)
Theorem C148_set_decode_partial look img src w h f row f' row' : f = FRgb \/ f = FBgr -> sorted (i_dict img) -> 3 * w + 3 < 2 ^ 32 -> 0 <= h -> 3 * w * h <= 2 ^ 32 -> (row < 0 \/ 3 * w <= row) -> h * stride f w row <= Z.of_nat (length src) ->
  (f' = FRgb \/ f' = FBgr \/ f' = FRgba \/ f' = FBgra) -> sound_row f' w row' ->
  exists img' out, set_pixels img src w h f row = Ok img' /\ decode_image look img' [] f' row' None = Ok out /\
    forall x y, 0 <= x < w -> 0 <= y < h -> pixel f' (stride f' w row') out x y = pixel f (stride f w row) src x y /\ opacity f' (stride f' w row') out x y = Some 255.
Proof.
  intros F SO O H O2 R L F' SR. assert (FS : settable f) by (unfold settable; tauto). assert (B : bytes_of f = 3) by (destruct F as [-> | ->]; reflexivity). destruct (SR) as (W & _).
  destruct (set_shows look img src w h f row FS SO ltac:(lia) O H ltac:(rewrite B; exact R) L) as (i & E & IW & IH & E8 & LD & CS & DN & P & K). rewrite B in LD.
  assert (SP : entry_is look i (bs "ColorSpace") (OName (bs "DeviceRGB"))).
  { unfold color_space in CS. unfold entry_is. destruct (dict_find look (bs "ColorSpace") (i_dict i)) as [v|]; [|destruct F as [-> | ->]; discriminate]. destruct v; try (destruct F as [-> | ->]; discriminate).
    match type of CS with (if ?c then _ else _) = _ => destruct c eqn:BQ end; [apply beq_eq in BQ; rewrite BQ; reflexivity|]. destruct F as [-> | ->]; match type of CS with (if ?c then _ else _) = _ => destruct c end; discriminate. }
  subst w h. destruct (rgb_decoded look i [] f' row' None) as (out & ED & LO & PD); try assumption; [lia|left; reflexivity|exact Logic.I|].
  exists i, out. split; [exact E|]. split; [exact ED|]. intros x y X Y. destruct (PD x y X Y) as [(c & SC & PC) OP]. destruct (P x y X Y) as (c' & PC' & SC'). rewrite PC, PC'.
  split; [|rewrite OP; destruct F' as [-> | [-> | [-> | ->]]]; reflexivity]. f_equal.
  assert (U : forall c, shows look i x y c -> exists r g b, sample 3 (i_w i) (i_data i) x y 0 = Some r /\ sample 3 (i_w i) (i_data i) x y 1 = Some g /\ sample 3 (i_w i) (i_data i) x y 2 = Some b /\ c = (r, g, b)).
  { intros q Q. destruct Q as [w' h' fn r g b (Q1 & _) _ _ D _ S0 S1 S2 | w' h' fn g _ _ _ _ Q1 _]; [|unfold entry_is in Q1, SP; rewrite SP in Q1; discriminate].
    assert (w' = i_w i) as ->. { destruct E8 as (Z1 & _). unfold entry_is in Q1, Z1. rewrite Z1 in Q1. congruence. }
    destruct D as [_ | n D]; [eauto 8|]. unfold entry_is in D. rewrite DN in D. discriminate. }
  destruct (U c SC) as (r & g & b & R1 & G1 & B1 & ->). destruct (U c' SC') as (r' & g' & b' & R2 & G2 & B2 & ->). congruence.
Qed.
Print Assumptions C148_set_decode_partial.
(** Images of one component with more rows are read beyond their data, as each row is looked for three times as far. *)
Theorem C148_gray_refuted look img mask f row : entry_is look img (bs "ColorSpace") (OName (bs "DeviceGray")) -> f <> FUnknown -> sound_row f (i_w img) row -> 2 <= i_h img -> 3 * i_w img * i_h img <= 2 ^ 32 ->
  Z.of_nat (length (i_data img)) = i_w img * i_h img -> decode_image look img mask f row None = UB.
Proof. exact (gray_undefined look img mask f row). Qed.
Print Assumptions C148_gray_refuted.
(** Data that are shorter than the entries say, and soft masks that are smaller than the image, are read beyond their ends. *)
Theorem C148_short_refuted look img mask f row : entry_is look img (bs "ColorSpace") (OName (bs "DeviceRGB")) -> (f = FRgb \/ f = FBgr \/ f = FRgba \/ f = FBgra) -> sound_row f (i_w img) row -> 0 < i_h img -> 3 * i_w img * i_h img <= 2 ^ 32 ->
  Z.of_nat (length (i_data img)) < 3 * i_w img * i_h img -> decode_image look img mask f row None = UB.
Proof. exact (short_undefined look img mask f row). Qed.
Print Assumptions C148_short_refuted.
Theorem C148_mask_refuted look img mask f row : entry_is look img (bs "ColorSpace") (OName (bs "DeviceRGB")) -> (f = FRgba \/ f = FBgra) -> sound_row f (i_w img) row -> 0 < i_h img -> i_w img * i_h img <= 2 ^ 32 ->
  mask <> [] -> Z.of_nat (length mask) < i_w img * i_h img -> decode_image look img mask f row None = UB.
Proof. exact (mask_undefined look img mask f row). Qed.
Print Assumptions C148_mask_refuted.
(** A width whose row size overflows to zero is written beyond the row. *)
Theorem C148_wide_refuted look img mask f row : entry_is look img (bs "ColorSpace") (OName (bs "DeviceRGB")) -> (f = FRgba \/ f = FBgra) -> 4 * i_w img = 2 ^ 32 -> 0 < i_h img -> row <= 0 -> decode_image look img mask f row None = UB.
Proof. exact (wide_undefined look img mask f row). Qed.
Print Assumptions C148_wide_refuted.
(** Images of three components cannot be decoded to shades of gray. *)
Theorem C148_shades_refuted look img mask row room : entry_is look img (bs "ColorSpace") (OName (bs "DeviceRGB")) -> 0 < i_h img -> exists e, decode_image look img mask FGray row room = Err e.
Proof. exact (no_gray look img mask row room). Qed.
Print Assumptions C148_shades_refuted.
(** A buffer gets the pixels with the usual rows only: longer ones do not fit in, as its size is not made for them. *)
Theorem C148_buffer_refuted look img mask f row old : eight_bits look img (i_w img) (i_h img) -> entry_is look img (bs "ColorSpace") (OName (bs "DeviceRGB")) -> dict_find look (bs "Decode") (i_dict img) = None ->
  (f = FRgb \/ f = FBgr \/ f = FRgba \/ f = FBgra) -> sound_row f (i_w img) row -> 0 < i_h img -> 3 * i_w img * i_h img <= 2 ^ 32 -> 3 * i_w img * i_h img <= Z.of_nat (length (i_data img)) ->
  covered f mask (i_w img) (i_h img) -> aligned (bytes_of f * i_w img) * i_h img < 2 ^ 32 ->
  if stride f (i_w img) row =? aligned (bytes_of f * i_w img) then exists out, decode_buffer look img mask f row old = Ok out /\ Z.of_nat (length out) = i_h img * stride f (i_w img) row /\
      forall x y, 0 <= x < i_w img -> 0 <= y < i_h img -> exists c, shows look img x y c /\ pixel f (stride f (i_w img) row) out x y = Some c
  else decode_buffer look img mask f row old = Err EValueOutOfRange.
Proof. exact (buffer_decoded look img mask f row old). Qed.
Print Assumptions C148_buffer_refuted.
(** The array for decoding is ignored. *)
Theorem C148_decode_refuted look : exists img c out, shows look img 0 0 c /\ decode_image look img [] FRgb (-1) None = Ok out /\ pixel FRgb 4 out 0 0 <> Some c.
Proof.
  exists (mk_image 1 1 [(bs "BitsPerComponent", ONum 8); (bs "ColorSpace", OName (bs "DeviceRGB")); (bs "Decode", OArr [ONum 1; ONum 0; ONum 1; ONum 0; ONum 1; ONum 0]); (bs "Height", ONum 1); (bs "Width", ONum 1)] [200; 100; 0]).
  exists (55, 155, 255), [200; 100; 0; 0]. split; [|split; [vm_compute; reflexivity|vm_compute; discriminate]].
  match goal with |- shows _ ?i _ _ _ => apply (Shows_rgb look i 0 0 1 1 (fun s => 255 - s) 200 100 0) end; try (vm_compute; reflexivity); try lia.
  - repeat split; vm_compute; reflexivity.
  - apply (Turned _ _ 3). vm_compute. reflexivity.
Qed.
Print Assumptions C148_decode_refuted.

Definition tiny : image := mk_image 2 2 [(bs "BitsPerComponent", ONum 8); (bs "ColorSpace", OName (bs "DeviceRGB")); (bs "Height", ONum 2); (bs "Width", ONum 2)] [3; 2; 1; 6; 5; 4; 9; 8; 7; 12; 11; 10].
Example C148_case : decode_image (fun _ => None) tiny [] FBgr (-1) None = Ok [1; 2; 3; 4; 5; 6; 0; 0; 7; 8; 9; 10; 11; 12; 0; 0]
  /\ decode_image (fun _ => None) tiny [50; 60; 70; 80] FRgba (-1) None = Ok [3; 2; 1; 50; 6; 5; 4; 60; 9; 8; 7; 70; 12; 11; 10; 80]
  /\ decode_image (fun _ => None) tiny [50; 60; 70] FRgba (-1) None = UB
  /\ decode_buffer (fun _ => None) tiny [] FRgb 12 [] = Err EValueOutOfRange.
Proof. vm_compute. auto. Qed.
Example C148_gray_case : let g := mk_image 2 2 [(bs "BitsPerComponent", ONum 8); (bs "ColorSpace", OName (bs "DeviceGray")); (bs "Height", ONum 2); (bs "Width", ONum 2)] [3; 2; 1; 6] in
  decode_image (fun _ => None) g [] FGray (-1) None = UB /\ decode_image (fun _ => None) (mk_image 2 1 (i_dict g) [3; 2]) [] FRgb (-1) None = Ok [3; 3; 3; 2; 2; 2; 0; 0].
Proof. vm_compute. auto. Qed.

(** ** C149 *)
(** The entries of an image are those of its description, the filters being declared, and the data those given.
    Missing: colour spaces that are arrays, and what the stream takes as its filters, see below. *)
Theorem C149_entries_partial z blocks i s : sorted (sdict s) -> n_array i = [] ->
  exists s', set_raw z blocks i s = (Ok tt, s') /\ sdata s' = concat blocks /\
    dict_get (bs "Width") (sdict s') = Some (ONum (n_w i)) /\ dict_get (bs "Height") (sdict s') = Some (ONum (n_h i)) /\ dict_get (bs "BitsPerComponent") (sdict s') = Some (ONum (n_bits i)) /\
    dict_get (bs "ColorSpace") (sdict s') = Some (OName (n_space i)) /\ dict_get (bs "Decode") (sdict s') = (match n_decode i with [] => None | l => Some (OArr l) end) /\
    dict_get (bs "Filter") (sdict s') = (match n_filters i with [] => None | [t] => Some (OName (filter_name t)) | ts => Some (OArr (map (fun t => OName (filter_name t)) ts)) end) /\
    (forall k, ~ List.In k [bs "Width"; bs "Height"; bs "BitsPerComponent"; bs "ColorSpace"; bs "Decode"; bs "Filter"] -> dict_get k (sdict s') = dict_get k (sdict s)).
Proof.
  intros SO A. destruct (raw_set z blocks i s) as (d & E & D). eexists. split; [exact E|]. cbn [sdata sdict]. rewrite A in D. split; [reflexivity|].
  assert (SD : sorted (match n_decode i with [] => erase_key (bs "Decode") | l => dict_add (bs "Decode") (OArr l) end (dict_add (bs "BitsPerComponent") (ONum (n_bits i)) (dict_add (bs "Height") (ONum (n_h i)) (dict_add (bs "Width") (ONum (n_w i)) (sdict s)))))).
  { destruct (n_decode i); [apply erase_sorted|]; repeat apply dict_add_sorted; exact SO. }
  assert (G : forall k, dict_get k d = if beq k (bs "Filter") then None else if beq k (bs "ColorSpace") then Some (OName (n_space i)) else if beq k (bs "Decode") then (match n_decode i with [] => None | l => Some (OArr l) end) else
    if beq k (bs "BitsPerComponent") then Some (ONum (n_bits i)) else if beq k (bs "Height") then Some (ONum (n_h i)) else if beq k (bs "Width") then Some (ONum (n_w i)) else dict_get k (sdict s)).
  { intros k. rewrite D. rewrite erase_get by (apply dict_add_sorted; apply SD). rewrite dict_get_add by apply SD.
    destruct (n_decode i) as [|o l]; [rewrite erase_get by (repeat apply dict_add_sorted; exact SO)|rewrite dict_get_add by (repeat apply dict_add_sorted; exact SO)]; rewrite !dict_get_add by (repeat apply dict_add_sorted; exact SO); reflexivity. }
  assert (SDD : sorted d). { rewrite D. apply erase_sorted, dict_add_sorted, SD. }
  assert (G' : forall k, dict_get k (match n_filters i with [] => d | fs => set_filter fs d end) = if beq k (bs "Filter") then (match n_filters i with [] => None | [t] => Some (OName (filter_name t)) | ts => Some (OArr (map (fun t => OName (filter_name t)) ts)) end) else dict_get k d).
  { intros k. destruct (n_filters i) as [|t [|t' ts]]; cbn [set_filter]; [|apply dict_get_add; exact SDD|apply dict_get_add; exact SDD]. destruct (beq k (bs "Filter")) eqn:B; [|reflexivity]. rewrite G, B. reflexivity. }
  repeat split; try (rewrite G', ?G; reflexivity).
  intros k K. rewrite G', G. repeat match goal with |- context [beq k ?q] => let B := fresh in destruct (beq k q) eqn:B; [exfalso; apply K; apply beq_eq in B; rewrite B; cbn [List.In]; auto 8|clear B] end. reflexivity.
Qed.
Print Assumptions C149_entries_partial.
(** The name of a colour space that is an array is lost: palettes, which are given as base, number and table, are no colour
    spaces with a palette in the image. *)
Theorem C149_palette_refuted z blocks i s base high table : sorted (sdict s) -> n_space i = bs "Indexed" -> n_array i = [base; ONum high; table] ->
  exists s', set_raw z blocks i s = (Ok tt, s') /\ dict_get (bs "ColorSpace") (sdict s') = Some (OArr [base; ONum high; table]) /\ forall v b h t, dict_get (bs "ColorSpace") (sdict s') = Some v -> ~ indexed b h t v.
Proof.
  intros SO N A. destruct (raw_set z blocks i s) as (d & E & D). eexists. split; [exact E|]. cbn [sdict]. rewrite A in D.
  assert (SD : sorted (match n_decode i with [] => erase_key (bs "Decode") | l => dict_add (bs "Decode") (OArr l) end (dict_add (bs "BitsPerComponent") (ONum (n_bits i)) (dict_add (bs "Height") (ONum (n_h i)) (dict_add (bs "Width") (ONum (n_w i)) (sdict s)))))).
  { destruct (n_decode i); [apply erase_sorted|]; repeat apply dict_add_sorted; exact SO. }
  assert (SDD : sorted d) by (rewrite D; apply erase_sorted, dict_add_sorted, SD).
  assert (G : dict_get (bs "ColorSpace") d = Some (OArr [base; ONum high; table])). { rewrite D. rewrite erase_get by (apply dict_add_sorted; apply SD). rewrite dict_get_add by apply SD. reflexivity. }
  assert (G' : dict_get (bs "ColorSpace") (match n_filters i with [] => d | fs => set_filter fs d end) = Some (OArr [base; ONum high; table])).
  { destruct (n_filters i) as [|t [|t' ts]]; cbn [set_filter]; [exact G| |]; rewrite dict_get_add by exact SDD; exact G. }
  split; [exact G'|]. intros v b h t V I. rewrite G' in V. injection V as <-. unfold indexed in I. discriminate I.
Qed.
Print Assumptions C149_palette_refuted.
(** The stream itself does not know the filters that are declared: it is read as if there were none. *)
Theorem C149_filters_refuted z look blocks i s t : n_filters i = [t] ->
  exists s', set_raw z blocks i s = (Ok tt, s') /\ dict_get (bs "Filter") (sdict s') = Some (OName (filter_name t)) /\ sfilters s' = [] /\ forall n, read_stream z look n false s' = Ok (concat blocks).
Proof.
  intros N. destruct (raw_set z blocks i s) as (d & E & D). eexists. split; [exact E|]. rewrite N. cbn [sdict sfilters set_filter]. split; [apply get_add_same|]. split; [reflexivity|]. reflexivity.
Qed.
Print Assumptions C149_filters_refuted.
(** With the options by default such a stream is written without any data. *)
Theorem C149_lost_refuted z look fl tight n r blocks i s s' : undoes (zdec z) (zenc z) -> bytes_ok (concat blocks) -> set_raw z blocks i s = (Ok tt, s') -> wf_obj default_params (ODict (sdict s')) ->
  exists text s2, write_stream z look fl tight true n r s' = (Ok text, s2) /\ object_text fl tight r (sdict s2) [] text.
Proof.
  intros U B E WF. destruct (raw_set z blocks i s) as (d & E' & _). rewrite E' in E. apply pair_equal_spec in E. destruct E as [_ <-].
  destruct (write_loses z look fl tight n r _ U WF B eq_refl) as (text & s2 & W & _ & T). eauto.
Qed.
Print Assumptions C149_lost_refuted.

(** A palette of two colours, as it is made for PNG files *)
Example C149_case : let z := mk_zlib hex_enc hex_dec in
  set_raw z [bs "AB"; bs "C"] (mk_info 8 3 [] (bs "Indexed") [OName (bs "DeviceRGB"); ONum 1; ORef 5 0] 1 []) (mk_sobj [(bs "Filter", OName (bs "FlateDecode"))] [7] [FFlate])
  = (Ok tt, mk_sobj [(bs "BitsPerComponent", ONum 1); (bs "ColorSpace", OArr [OName (bs "DeviceRGB"); ONum 1; ORef 5 0]); (bs "Height", ONum 3); (bs "Width", ONum 8)] (bs "ABC") [])
  /\ sdict (snd (set_raw z [bs "x"] (mk_info 8 3 [FDct] (bs "DeviceRGB") [] 8 []) (mk_sobj [] [] []))) =
     [(bs "BitsPerComponent", ONum 8); (bs "ColorSpace", OName (bs "DeviceRGB")); (bs "Filter", OName (bs "DCTDecode")); (bs "Height", ONum 3); (bs "Width", ONum 8)].
Proof. vm_compute. auto. Qed.
