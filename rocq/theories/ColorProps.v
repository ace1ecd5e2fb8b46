(** Properties C122 to C124: colours. *)
From Coq Require Import String QArith Lqa Lia.
From Verif Require Import Base ChainProofs TokModel ObjSpec GrammarSpec ColorModel ColorSpec ColorProofs ColorTextProofs.
Local Open Scope Z_scope.

(** ** C122: conversions of colours keep what is seen.
    Partial: colours of device spaces; separations are not converted rightly, and the formulas are not those of the standard. *)
Theorem C122_conversions_partial a s : told a = Some s -> proper s -> let '(r, g, b) := light s in
  (exists x r' g' b', to_rgb a = Ok x /\ told x = Some (Rgb r' g' b') /\ proper (Rgb r' g' b') /\ (r' == r /\ g' == g /\ b' == b)%Q) /\
  (exists x c m y k, to_cmyk a = Ok x /\ told x = Some (Cmyk c m y k) /\ proper (Cmyk c m y k) /\ seen (Cmyk c m y k) r g b) /\
  (exists x t, to_gray a = Ok x /\ told x = Some (Gray t) /\ proper (Gray t) /\ (t - std_gray r g b <= 4 # 1000 /\ std_gray r g b - t <= 4 # 1000)%Q).
Proof.
  intros T P. destruct (to_rgb_ok a s T P) as (x & r' & g' & b' & E & B & S1 & P1). destruct (to_cmyk_ok a s T P) as (x2 & t2 & E2 & B2 & P2 & S2 & (c & m & y & k & ->)). destruct (to_gray_ok a s T P) as (x3 & t & E3 & B3 & W3 & S3).
  unfold seen in S1. destruct (light s) as [[r g] b]. destruct S1 as (A1 & A2 & A3). split; [|split].
  - exists x, r', g', b'. split; [exact E|]. split; [exact B|]. split; [exact P1|]. repeat split; symmetry; assumption.
  - exists x2, c, m, y, k. split; [exact E2|]. split; [exact B2|]. split; [exact P2|exact S2].
  - exists x3, t. split; [exact E3|]. split; [exact B3|]. split; [constructor; [exact W3|constructor]|]. inversion P1 as [|u v [W1 V1] Q1]; subst. inversion Q1 as [|u v [W2 V2] Q2]; subst. inversion Q2 as [|u v [W4 V4] _]; subst. unfold luma in S3. unfold std_gray. lra.
Qed.
Print Assumptions C122_conversions_partial.
Example C122_case : exists x y z, to_rgb (mk_color false SCmyk 1 0 (1 # 2) (1 # 4) [] 0 SUnknown) = Ok x /\ Qeq_bool (c_0 x) 0 = true /\ Qeq_bool (c_1 x) (3 # 4) = true /\ Qeq_bool (c_2 x) (3 # 8) = true /\
  to_gray x = Ok y /\ Qeq_bool (c_0 y) (483 # 1000) = true /\ to_cmyk x = Ok z /\ Qeq_bool (c_2 z) (1 # 2) = true /\ Qeq_bool (c_3 z) (1 # 4) = true.
Proof. do 3 eexists. split; [vm_compute; reflexivity|]. split; [vm_compute; reflexivity|]. split; [vm_compute; reflexivity|]. split; [vm_compute; reflexivity|]. split; [vm_compute; reflexivity|]. split; [vm_compute; reflexivity|]. split; [vm_compute; reflexivity|]. split; vm_compute; reflexivity. Qed.
(** There and back *)
Theorem C122_rgb_back a r g b : told a = Some (Rgb r g b) -> proper (Rgb r g b) -> exists x y s, to_cmyk a = Ok x /\ to_rgb x = Ok y /\ told y = Some s /\ alike (Rgb r g b) s.
Proof.
  intros T P. destruct (to_cmyk_ok a _ T P) as (x & t & E & B & P1 & S1 & _). destruct (to_rgb_ok x t B P1) as (y & r' & g' & b' & E2 & B2 & S2 & _). exists x, y, (Rgb r' g' b'). split; [exact E|]. split; [exact E2|]. split; [exact B2|].
  unfold light in S1. unfold seen in *. destruct (light t) as [[u v] w]. destruct S1 as (A1 & A2 & A3), S2 as (C1 & C2 & C3). unfold alike, parts. repeat constructor; lra.
Qed.
Print Assumptions C122_rgb_back.
Theorem C122_gray_back a g : told a = Some (Gray g) -> proper (Gray g) ->
  (exists x y s, to_rgb a = Ok x /\ to_gray x = Ok y /\ told y = Some s /\ alike (Gray g) s) /\ (exists x y s, to_cmyk a = Ok x /\ to_gray x = Ok y /\ told y = Some s /\ alike (Gray g) s).
Proof.
  intros T P. split.
  - destruct (to_rgb_ok a _ T P) as (x & r' & g' & b' & E & B & S1 & P1). destruct (to_gray_ok x _ B P1) as (y & t & E2 & B2 & _ & S2). exists x, y, (Gray t). split; [exact E|]. split; [exact E2|]. split; [exact B2|]. unfold seen, light, luma in *. destruct S1 as (A1 & A2 & A3). repeat constructor. lra.
  - destruct (to_cmyk_ok a _ T P) as (x & u & E & B & P1 & S1 & _). destruct (to_gray_ok x u B P1) as (y & t & E2 & B2 & _ & S2). exists x, y, (Gray t). split; [exact E|]. split; [exact E2|]. split; [exact B2|]. unfold light in S1. unfold seen in S1. destruct (light u) as [[u1 u2] u3]. destruct S1 as (A1 & A2 & A3). unfold luma in S2. repeat constructor. lra.
Qed.
Print Assumptions C122_gray_back.
(** Inks come back if they have as much black as can be; whatever they are, as the inks with as much black as can be and the same light *)
Theorem C122_cmyk_back_partial a c m y k : told a = Some (Cmyk c m y k) -> proper (Cmyk c m y k) -> exists x z c' m' y' k', to_rgb a = Ok x /\ to_cmyk x = Ok z /\ told z = Some (Cmyk c' m' y' k') /\
  most_black (Cmyk c' m' y' k') /\ (let '(r, g, b) := light (Cmyk c m y k) in seen (Cmyk c' m' y' k') r g b) /\ (most_black (Cmyk c m y k) -> alike (Cmyk c m y k) (Cmyk c' m' y' k')).
Proof.
  intros T P. destruct (to_rgb_ok a _ T P) as (x & r & g & b & E & B & S1 & P1). destruct (rgb_cmyk_ok x r g b B P1) as (z & s & E2 & B2 & P2 & S2 & M2 & (c' & m' & y' & k' & ->)). exists x, z, c', m', y', k'. split; [exact E|]. split.
  - unfold to_cmyk. assert (SB : c_space x = SRgb) by (unfold told in B; destruct (c_space x); congruence). rewrite SB. exact E2.
  - split; [exact B2|]. split; [exact M2|]. split; [exact (seen_trans _ _ _ _ _ S1 S2)|]. intros M. exact (inks_unique _ _ _ _ _ _ _ _ _ _ _ P P2 S1 S2 M M2).
Qed.
Print Assumptions C122_cmyk_back_partial.
(** Equal amounts of three inks become black *)
Theorem C122_cmyk_back_refuted : exists a s x z t, told a = Some s /\ proper s /\ to_rgb a = Ok x /\ to_cmyk x = Ok z /\ told z = Some t /\ ~ alike s t.
Proof.
  exists (mk_color false SCmyk (1 # 2) (1 # 2) (1 # 2) 0 [] 0 SUnknown). do 4 eexists. split; [reflexivity|]. split; [repeat (apply Forall_cons; [split; discriminate|]); constructor|]. split; [vm_compute; reflexivity|]. split; [vm_compute; reflexivity|]. split; [reflexivity|].
  intros A. unfold alike, parts in A. inversion A as [|u v l l' Q1 _]; subst. vm_compute in Q1. discriminate Q1.
Qed.
Print Assumptions C122_cmyk_back_refuted.
(** The standard subtracts the sum of ink and black from the light *)
Theorem C122_standard_partial c k : within c -> within k -> (std_light c k <= (1 - c) * (1 - k) /\ (1 - c) * (1 - k) <= std_light c k + (1 # 4))%Q.
Proof.
  intros [A B] [C D]. unfold std_light. destruct (Qle_bool 1 (c + k)) eqn:E.
  - apply Qle_bool_iff in E. assert (H : (0 <= (1 - c - (1 - k)) * (1 - c - (1 - k)))%Q) by (destruct (Qlt_le_dec (1 - c - (1 - k)) 0); nra). split; nra.
  - assert (L : (c + k < 1)%Q) by (apply Qnot_le_lt; intros X; apply Qle_bool_iff in X; congruence). assert (H : (0 <= (c - k) * (c - k))%Q) by (destruct (Qlt_le_dec (c - k) 0); nra). split; nra.
Qed.
Print Assumptions C122_standard_partial.
Theorem C122_standard_refuted : exists a c m y k x r g b, told a = Some (Cmyk c m y k) /\ proper (Cmyk c m y k) /\ to_rgb a = Ok x /\ told x = Some (Rgb r g b) /\ (r == std_light c k + (1 # 4))%Q.
Proof.
  exists (mk_color false SCmyk (1 # 2) 0 0 (1 # 2) [] 0 SUnknown). do 8 eexists. split; [reflexivity|]. split; [repeat (apply Forall_cons; [split; discriminate|]); constructor|]. split; [vm_compute; reflexivity|]. split; [reflexivity|]. vm_compute. reflexivity.
Qed.
Print Assumptions C122_standard_refuted.
(** A separation is converted to gray as RGB, and without its tint *)
Theorem C122_separation_refuted name d d' a c c' b : told a <> None -> separation name d a = Ok c -> separation name d' a = Ok c' -> to_gray c = Ok b -> c_space b = SRgb /\ to_gray c' = Ok b /\ to_rgb c' = Ok b.
Proof.
  intros T E E' G. unfold separation in *. unfold told in T. destruct (c_space a) eqn:SP; try discriminate; try (exfalso; apply T; reflexivity); apply ok_inj in E; apply ok_inj in E'; subst c c'; unfold to_gray, to_rgb in *; cbn [c_space c_alt space_eqb] in *; try discriminate G.
  split; [|split; exact G]. unfold cmyk_rgb in G. cbn [c_0 c_1 c_2 c_3] in G. apply rgb_inv in G as [_ G]. apply told_rgb in G as [G _]. exact G.
Qed.
Print Assumptions C122_separation_refuted.
Example C122_separation_case : exists a c b, cmyk (1 # 2) 0 0 0 = Ok a /\ separation (bs "Gold") (1 # 4) a = Ok c /\ to_gray c = Ok b /\ c_space b = SRgb.
Proof. do 3 eexists. split; [vm_compute; reflexivity|]. split; [vm_compute; reflexivity|]. split; vm_compute; reflexivity. Qed.

(** ** C123: colours are read back from arrays and texts.
    Partial: colours of device spaces; transparent colours, Lab and separations are read as others; texts of numbers lose their first byte. *)
Theorem C123_array_back_partial a s : told a = Some s -> proper s -> exists l b, to_array a = Ok l /\ from_array (map Some l) = Ok b /\ told b = Some s.
Proof. exact (array_back a s). Qed.
Print Assumptions C123_array_back_partial.
(** The arrays that are read are those of proper colours *)
Theorem C123_array_read l s : l = map Some (parts s) -> proper s <-> exists c, from_array l = Ok c /\ told c = Some s.
Proof.
  intros ->. split; [apply array_parts|]. intros (c & E & T). apply array_inv in E as (s' & E & P & T'). assert (s' = s) by congruence. subst s'. exact P.
Qed.
Print Assumptions C123_array_read.
Theorem C123_array_only l c : from_array l = Ok c -> exists s, l = map Some (parts s) /\ proper s /\ told c = Some s.
Proof. exact (array_inv l c). Qed.
Print Assumptions C123_array_only.
Example C123_case : from_array [Some (1 # 2); Some 0; Some 1]%Q = Ok (mk_color false SRgb (1 # 2) 0 1 0 [] 0 SUnknown) /\ from_array [Some (1 # 2); None; Some 1]%Q = Err EInvalidDataType /\ from_array [Some 1; Some 1]%Q = Err EInvalidDataType /\ from_array [Some (3 # 2)] = Err EValueOutOfRange.
Proof. repeat split; reflexivity. Qed.
(** An array of no numbers is the transparent colour: it is not accepted, and an annotation with it is black. The transparent colour has
    no array *)
Theorem C123_transparent_refuted : from_array [] = Err EInvalidDataType /\ get_color (Some (OArr [])) = Ok default_color /\ to_array transparent = Err ECannotConvertColor.
Proof. repeat split; reflexivity. Qed.
Print Assumptions C123_transparent_refuted.
(** Lab colours are read as RGB or raise an error, also where the lack of a colour would have been told by a value; separations as gray *)
Theorem C123_spaces_refuted : (exists a l b, lab 1 0 0 = Ok a /\ to_array a = Ok l /\ from_array (map Some l) = Ok b /\ c_space b = SRgb) /\
  (exists a l, lab 50 (-20) 30 = Ok a /\ to_array a = Ok l /\ try_from (map Some l) default_color = Err EValueOutOfRange) /\
  (exists a c l b, rgb 1 0 0 = Ok a /\ separation (bs "Spot") (1 # 2) a = Ok c /\ to_array c = Ok l /\ from_array (map Some l) = Ok b /\ c_space b = SGray).
Proof.
  split; [|split].
  - do 3 eexists. split; [vm_compute; reflexivity|]. split; [vm_compute; reflexivity|]. split; [vm_compute; reflexivity|]. reflexivity.
  - do 2 eexists. split; [vm_compute; reflexivity|]. split; [vm_compute; reflexivity|]. vm_compute. reflexivity.
  - do 4 eexists. split; [vm_compute; reflexivity|]. split; [vm_compute; reflexivity|]. split; [vm_compute; reflexivity|]. split; [vm_compute; reflexivity|]. reflexivity.
Qed.
Print Assumptions C123_spaces_refuted.
(** Texts *)
Theorem C123_hex t r g b : hexes t [r; g; b] -> exists c, from_string (35 :: t) = Ok (TColor c) /\ told c = Some (Rgb (inject_Z r / 255) (inject_Z g / 255) (inject_Z b / 255)).
Proof. intros H. destruct (text_rgb t r g b H) as (c & E & _ & T). exists c. split; [exact E|exact T]. Qed.
Print Assumptions C123_hex.
Theorem C123_hex_inks t c m y k : hexes t [c; m; y; k] -> exists x, from_string (35 :: t) = Ok (TColor x) /\ told x = Some (Cmyk (inject_Z c / 255) (inject_Z m / 255) (inject_Z y / 255) (inject_Z k / 255)).
Proof. exact (text_cmyk t c m y k). Qed.
Print Assumptions C123_hex_inks.
Theorem C123_array_text t l s : spelled default_params t (OArr l) -> (S (inner (OArr l)) <= 256)%nat -> map real_of l = map Some (parts s) -> proper s -> exists c, from_string t = Ok (TColor c) /\ told c = Some s.
Proof. intros SP IN M P. rewrite (text_array t l SP IN), M. destruct (array_parts s P) as (c & E & T). rewrite E. exists c. split; [reflexivity|exact T]. Qed.
Print Assumptions C123_array_text.
Theorem C123_name n x y z t : In (n, (x, y, z)) colors -> Forall2 letter_case n t -> exists c r g b, from_string t = Ok (TColor c) /\ told c = Some (Rgb r g b) /\ (r == inject_Z x / 255 /\ g == inject_Z y / 255 /\ b == inject_Z z / 255)%Q.
Proof. exact (text_name n x y z t). Qed.
Print Assumptions C123_name.
Theorem C123_other_name t : a_name t -> ~ In (to_lower t) (map fst colors) -> from_string t = Ok (TColor default_color).
Proof. exact (text_unknown t). Qed.
Print Assumptions C123_other_name.
Theorem C123_number_partial t q : frac t q -> t <> [] -> exists c g, from_string (48 :: 46 :: t) = Ok (TColor c) /\ told c = Some (Gray g) /\ (g == q)%Q.
Proof. intros F N. exact (text_frac 0 t q ltac:(lia) F N). Qed.
Print Assumptions C123_number_partial.
Example C123_texts : exists a b c d e, from_string (bs "#fF8000") = Ok (TColor a) /\ c_space a = SRgb /\ from_string (bs "#00000080") = Ok (TColor b) /\ c_space b = SCmyk /\
  from_string (bs "[ 0.5 1 %half
 0]") = Ok (TColor c) /\ c_space c = SRgb /\ from_string (bs "DarkOrchid") = Ok (TColor d) /\ Qeq_bool (c_0 d) (153 # 255) = true /\ from_string (bs "0.25") = Ok (TColor e) /\ Qeq_bool (c_0 e) (1 # 4) = true.
Proof. do 5 eexists. split; [vm_compute; reflexivity|]. split; [reflexivity|]. split; [vm_compute; reflexivity|]. split; [reflexivity|]. split; [vm_compute; reflexivity|]. split; [reflexivity|]. split; [vm_compute; reflexivity|]. split; [vm_compute; reflexivity|]. split; vm_compute; reflexivity. Qed.
(** The first byte of a number is skipped: white is black, a half written with the point first is out of range, whole numbers are no numbers;
    what is not a number is accepted *)
Theorem C123_number_refuted : (exists c, from_string (bs "1.0") = Ok (TColor c) /\ c_space c = SGray /\ (c_0 c == 0)%Q) /\ from_string (bs ".5") = Err EValueOutOfRange /\
  from_string (bs "1") = Err ENoNumber /\ from_string (bs "0") = Err ENoNumber /\ from_string (bs "0nan") = Ok NanGray.
Proof. split; [eexists; split; [vm_compute; reflexivity|]; split; [reflexivity|vm_compute; reflexivity]|]. repeat split; vm_compute; reflexivity. Qed.
Print Assumptions C123_number_refuted.
(** Equality and inequality *)
Theorem C123_equal a b : color_neb a b = negb (color_eqb a b).
Proof. unfold color_neb, color_eqb. rewrite !negb_andb. reflexivity. Qed.
Print Assumptions C123_equal.

(** ** C124: the colour spaces of separations.
    Partial: where all parts are less than 128/255; for RGB the function has too many entries. *)
Theorem C124_inks_partial name density a x c m y k : separation name density a = Ok x -> told a = Some (Cmyk c m y k) -> Forall (fun q => 0 <= q /\ q * 255 < 128)%Q [c; m; y; k] ->
  exists f, build_space x = Ok (Some (CsSeparation name (bs "DeviceCMYK") f)) /\ fn_ok (fn_of f) /\ tints (fn_of f) [c; m; y; k].
Proof. exact (space_cmyk name density a x c m y k). Qed.
Print Assumptions C124_inks_partial.
Theorem C124_rgb_partial name density a c r g b : separation name density a = Ok c -> told a = Some (Rgb r g b) -> Forall (fun q => 0 <= q /\ q * 255 < 128)%Q [r; g; b] ->
  exists f, build_space c = Ok (Some (CsSeparation name (bs "DeviceRGB") f)) /\ tints (fn_of f) [r; g; b].
Proof. exact (space_rgb name density a c r g b). Qed.
Print Assumptions C124_rgb_partial.
Example C124_case : exists a x f, cmyk (1 # 4) 0 (2 # 5) 0 = Ok a /\ separation (bs "Moss") 1 a = Ok x /\ build_space x = Ok (Some (CsSeparation (bs "Moss") (bs "DeviceCMYK") f)) /\ fn_data f = [0; 0; 0; 0; 63; 0; 102; 0].
Proof. do 3 eexists. split; [vm_compute; reflexivity|]. split; [vm_compute; reflexivity|]. split; [vm_compute; reflexivity|]. reflexivity. Qed.
(** Other colours: converting the part to a char is undefined *)
Theorem C124_high_refuted name density a c s : separation name density a = Ok c -> told a = Some s -> proper s -> (forall g, s <> Gray g) -> Exists (fun q => 128 <= q * 255)%Q (parts s) -> build_space c = UB.
Proof. exact (space_high name density a c s). Qed.
Print Assumptions C124_high_refuted.
Example C124_high_case : exists a c, rgb 1 0 0 = Ok a /\ separation (bs "Red") 1 a = Ok c /\ build_space c = UB /\ build_space separation_all = UB.
Proof. do 2 eexists. split; [vm_compute; reflexivity|]. split; [vm_compute; reflexivity|]. split; vm_compute; reflexivity. Qed.
(** Gray: the part is not scaled, every separation is black or nearly so *)
Theorem C124_gray_refuted name density a c g : separation name density a = Ok c -> told a = Some (Gray g) -> within g ->
  exists f, build_space c = Ok (Some (CsSeparation name (bs "DeviceGray") f)) /\ (forall x, within x -> (apply (fn_of f) 0 x <= 1 # 255)%Q) /\ ~ fn_ok (fn_of f) /\ ((2 # 255 < g)%Q -> ~ tints (fn_of f) [g]).
Proof.
  intros E T W. destruct (space_gray name density a c g E T W) as (f & B & L). exists f. split; [exact B|]. split; [exact L|]. split.
  - intros (_ & _ & _ & _ & D & _). apply told_gray in T as (SP & ->). unfold separation in E. rewrite SP in E. apply ok_inj in E. subst c. unfold build_space in B. cbn [c_space c_alt] in B. apply bind_ok in B as (d & _ & B). apply ok_inj in B. injection B as <-. vm_compute in D. discriminate D.
  - intros G N. assert (W1 : within 1) by (split; discriminate). destruct (N 0%nat g 1%Q eq_refl W1) as [_ N1]. specialize (L 1%Q W1). lra.
Qed.
Print Assumptions C124_gray_refuted.
(** The function of RGB separations has eight numbers in Decode instead of six; the alternate space of Lab separations is a name, and its
    function is undefined from a lightness of 1 on *)
Theorem C124_entries_refuted : (exists a c n f, rgb (1 # 4) 0 0 = Ok a /\ separation n 1 a = Ok c /\ build_space c = Ok (Some (CsSeparation n (bs "DeviceRGB") f)) /\ ~ fn_ok (fn_of f)) /\
  (forall n d l x y a c, lab l x y = Ok a -> (1 <= l)%Q -> separation n d a = Ok c -> build_space c = UB).
Proof.
  split.
  - do 2 eexists. exists (bs "S"). eexists. split; [vm_compute; reflexivity|]. split; [vm_compute; reflexivity|]. split; [vm_compute; reflexivity|]. intros (_ & _ & _ & _ & D & _). vm_compute in D. discriminate D.
  - intros n d l x y a c E L S. unfold lab in E. apply bind_ok in E as (? & _ & E). apply bind_ok in E as (? & _ & E). apply ok_inj in E. subst a. unfold separation in S. cbn [c_space c_0 c_1 c_2] in S. apply ok_inj in S. subst c. unfold build_space. cbn [c_space c_alt c_0 c_1 c_2 map to_chars]. rewrite char_high by lra. reflexivity.
Qed.
Print Assumptions C124_entries_refuted.
