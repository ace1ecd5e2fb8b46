(** Proofs about images *)
From Coq Require Import String Lia.
From Verif Require Import Base TokModel FilterModel OwnModel EncryptModel StreamModel ChainProofs ImageModel ImageSpec.
Local Open Scope Z_scope.

(** ** Bytes by place *)
Lemma byte_at_app l r i : 0 <= i -> byte_at (l ++ r) i = if i <? Z.of_nat (length l) then byte_at l i else byte_at r (i - Z.of_nat (length l)).
Proof.
  intros H. unfold byte_at. destruct (i <? Z.of_nat (length l)) eqn:E; [apply nth_error_app1; lia|]. rewrite nth_error_app2 by lia. f_equal. lia.
Qed.
Lemma nth_skipn {A} (l : list A) n i : nth_error (skipn n l) i = nth_error l (n + i).
Proof. revert l. induction n as [|n IH]; intros l; [reflexivity|]. destruct l; [destruct i; reflexivity|]. exact (IH l). Qed.
Lemma nth_firstn {A} (l : list A) n i : (i < n)%nat -> nth_error (firstn n l) i = nth_error l i.
Proof. revert l i. induction n as [|n IH]; intros l i H; [lia|]. destruct l; [reflexivity|]. destruct i; [reflexivity|]. cbn [firstn nth_error]. apply IH. lia. Qed.
Lemma byte_at_skipn l n i : 0 <= n -> 0 <= i -> byte_at (skipn (Z.to_nat n) l) i = byte_at l (n + i).
Proof. intros H K. unfold byte_at. rewrite nth_skipn. f_equal. lia. Qed.
Lemma byte_at_firstn l n i : 0 <= i < n -> byte_at (firstn (Z.to_nat n) l) i = byte_at l i.
Proof. intros H. unfold byte_at. apply nth_firstn. lia. Qed.
Lemma byte_at_in l i : 0 <= i < Z.of_nat (length l) -> exists b, byte_at l i = Some b.
Proof. intros H. unfold byte_at. destruct (nth_error l (Z.to_nat i)) as [b|] eqn:E; [eauto|]. apply nth_error_None in E. lia. Qed.
Lemma byte_at_repeat b n i : 0 <= i < n -> byte_at (repeat b (Z.to_nat n)) i = Some b.
Proof. intros H. unfold byte_at. apply nth_error_repeat. lia. Qed.

Lemma span_ok data base n : 0 <= base -> 0 <= n -> base + n <= Z.of_nat (length data) ->
  exists s, span_at data base n = Ok s /\ Z.of_nat (length s) = n /\ forall j, 0 <= j < n -> byte_at s j = byte_at data (base + j).
Proof.
  intros B N L. unfold span_at. destruct (n =? 0) eqn:E.
  { exists []. split; [reflexivity|]. split; [cbn [length]; lia|]. intros j J. lia. }
  destruct (Z.of_nat (length data) <? base + n) eqn:F; [lia|].
  eexists. split; [reflexivity|]. split; [rewrite firstn_length, skipn_length; lia|]. intros j J. rewrite byte_at_firstn by lia. apply byte_at_skipn; lia.
Qed.
Lemma span_out data base n : 0 < n -> Z.of_nat (length data) < base + n -> span_at data base n = UB.
Proof. intros N L. unfold span_at. destruct (n =? 0) eqn:E; [lia|]. destruct (Z.of_nat (length data) <? base + n) eqn:F; [reflexivity|lia]. Qed.
Lemma span_cases data base n : 0 <= base -> 0 <= n -> span_at data base n = UB \/ exists s, span_at data base n = Ok s /\ Z.of_nat (length s) = n.
Proof.
  intros B N. destruct (Z.eq_dec n 0) as [->|Z0]; [right; exists []; split; reflexivity|].
  destruct (Z_lt_le_dec (Z.of_nat (length data)) (base + n)) as [L|L]; [left; apply span_out; lia|].
  right. destruct (span_ok data base n) as (s & E & L' & _); try assumption. eauto.
Qed.

(** ** Pixels one after the other *)
Lemma conv3_nth f k : (forall r g b a, length (f r g b a) = k) -> forall x src al r g b a j, (j < k)%nat ->
  nth_error src (3 * x) = Some r -> nth_error src (3 * x + 1) = Some g -> nth_error src (3 * x + 2) = Some b -> nth_error al x = Some a ->
  nth_error (conv3 f src al) (k * x + j) = nth_error (f r g b a) j.
Proof.
  intros K. induction x as [|x IH]; intros src al r g b a j J R G B A.
  - destruct src as [|r' [|g' [|b' t]]]; try discriminate. destruct al as [|a' u]; [discriminate|].
    cbn in R, G, B, A. injection R as ->. injection G as ->. injection B as ->. injection A as ->. cbn [conv3].
    rewrite Nat.mul_0_r, Nat.add_0_l. apply nth_error_app1. rewrite K. exact J.
  - replace (3 * S x)%nat with (S (S (S (3 * x))))%nat in * by lia.
    destruct src as [|r' [|g' [|b' t]]]; try discriminate. destruct al as [|a' u]; [discriminate|].
    cbn [conv3]. rewrite nth_error_app2 by (rewrite K; lia). rewrite K. replace (k * S x + j - k)%nat with (k * x + j)%nat by lia.
    apply IH; assumption.
Qed.
Lemma conv3_length f k : (forall r g b a, length (f r g b a) = k) -> forall n src al, length src = (3 * n)%nat -> length al = n -> length (conv3 f src al) = (k * n)%nat.
Proof.
  intros K. induction n as [|n IH]; intros src al S A.
  - destruct src; [|discriminate S]. cbn. lia.
  - destruct src as [|r [|g [|b t]]]; cbn in S; try lia. destruct al as [|a u]; [discriminate A|].
    cbn [conv3]. rewrite app_length, K, IH; [lia|lia|]. cbn in A. lia.
Qed.
Lemma conv1_nth f k : (forall g a, length (f g a) = k) -> forall x src al g a j, (j < k)%nat -> nth_error src x = Some g -> nth_error al x = Some a ->
  nth_error (conv1 f src al) (k * x + j) = nth_error (f g a) j.
Proof.
  intros K. induction x as [|x IH]; intros src al g a j J G A; destruct src as [|g' t]; try discriminate; destruct al as [|a' u]; try discriminate; cbn [conv1].
  - cbn in G, A. injection G as ->. injection A as ->. rewrite Nat.mul_0_r, Nat.add_0_l. apply nth_error_app1. rewrite K. exact J.
  - rewrite nth_error_app2 by (rewrite K; lia). rewrite K. replace (k * S x + j - k)%nat with (k * x + j)%nat by lia. apply IH; assumption.
Qed.
Lemma conv1_length f k : (forall g a, length (f g a) = k) -> forall n src al, length src = n -> length al = n -> length (conv1 f src al) = (k * n)%nat.
Proof.
  intros K. induction n as [|n IH]; intros src al S A; destruct src as [|g t]; try discriminate S; destruct al as [|a u]; try discriminate A; cbn [conv1]; [cbn; lia|].
  rewrite app_length, K, IH; [lia| |]; cbn in S, A; lia.
Qed.
Lemma conv3_at f k src al w x j r g b a : (forall r g b a, length (f r g b a) = Z.to_nat k) -> 0 <= j < k -> 0 <= x < w ->
  byte_at src (3 * x) = Some r -> byte_at src (3 * x + 1) = Some g -> byte_at src (3 * x + 2) = Some b -> byte_at al x = Some a ->
  byte_at (conv3 f src al) (k * x + j) = byte_at (f r g b a) j.
Proof.
  intros K J X R G B A. unfold byte_at in *. replace (Z.to_nat (k * x + j)) with (Z.to_nat k * Z.to_nat x + Z.to_nat j)%nat by nia.
  replace (Z.to_nat (3 * x)) with (3 * Z.to_nat x)%nat in R by lia. replace (Z.to_nat (3 * x + 1)) with (3 * Z.to_nat x + 1)%nat in G by lia. replace (Z.to_nat (3 * x + 2)) with (3 * Z.to_nat x + 2)%nat in B by lia.
  apply (conv3_nth f (Z.to_nat k) K); try assumption. lia.
Qed.
Lemma conv1_at f k src al w x j g a : (forall g a, length (f g a) = Z.to_nat k) -> 0 <= j < k -> 0 <= x < w ->
  byte_at src x = Some g -> byte_at al x = Some a -> byte_at (conv1 f src al) (k * x + j) = byte_at (f g a) j.
Proof.
  intros K J X G A. unfold byte_at in *. replace (Z.to_nat (k * x + j)) with (Z.to_nat k * Z.to_nat x + Z.to_nat j)%nat by nia.
  apply (conv1_nth f (Z.to_nat k) K); try assumption. lia.
Qed.

Lemma u32_small z : 0 <= z < 2 ^ 32 -> u32 z = z.
Proof. intros H. unfold u32. apply Z.mod_small. exact H. Qed.

(** ** Setting *)
(** The colour at a place of a row of the file *)
Definition file_color (f : pixfmt) (l : list Z) (i : Z) : option (Z * Z * Z) :=
  match f with FGray => three (byte_at l i) (byte_at l i) (byte_at l i) | _ => three (byte_at l i) (byte_at l (i + 1)) (byte_at l (i + 2)) end.
Lemma pdf_line_ok f w line : settable f -> 0 <= w -> 3 * w < 2 ^ 32 -> bytes_of f * w <= Z.of_nat (length line) ->
  exists l, pdf_line f w line = Ok l /\ Z.of_nat (length l) = bytes_of f * w /\ forall x, 0 <= x < w -> file_color f l (bytes_of f * x) = pixel f 0 line x 0.
Proof.
  intros [-> | [-> | ->]] W O L; cbn [bytes_of] in *; unfold pdf_line.
  - destruct (span_ok line 0 w) as (s & E & N & A); [lia|lia|lia|]. exists s. split; [exact E|]. split; [lia|]. intros x X. unfold file_color, pixel.
    rewrite A by lia. f_equal; f_equal; lia.
  - rewrite u32_small by lia. destruct (span_ok line 0 (3 * w)) as (s & E & N & A); [lia|lia|lia|]. exists s. split; [exact E|]. split; [lia|]. intros x X. unfold file_color, pixel.
    rewrite !A by lia. f_equal; f_equal; lia.
  - rewrite u32_small by lia. rewrite Z.ltb_irrefl. destruct (span_ok line 0 (3 * w)) as (s & E & N & A); [lia|lia|lia|]. rewrite E. cbn [bind].
    eexists. split; [reflexivity|]. split.
    { rewrite (conv3_length (fun b g r _ : Z => [r; g; b]) 3 (fun _ _ _ _ => eq_refl) (Z.to_nat w)); [lia|lia|apply repeat_length]. }
    intros x X. unfold file_color, pixel.
    destruct (byte_at_in s (3 * x)) as (b & B); [lia|]. destruct (byte_at_in s (3 * x + 1)) as (g & G); [lia|]. destruct (byte_at_in s (3 * x + 2)) as (r & R); [lia|].
    pose proof (byte_at_repeat 255 w x X) as AL.
    set (f := fun b g r _ : Z => [r; g; b]).
    assert (C : forall j, 0 <= j < 3 -> byte_at (conv3 f s (repeat 255 (Z.to_nat w))) (3 * x + j) = byte_at (f b g r 255) j).
    { intros j J. apply (conv3_at f 3 s (repeat 255 (Z.to_nat w)) w); auto. }
    pose proof (C 0 ltac:(lia)) as C0. pose proof (C 1 ltac:(lia)) as C1. pose proof (C 2 ltac:(lia)) as C2. rewrite Z.add_0_r in C0. rewrite C0, C1, C2.
    rewrite A in B, G, R by lia. replace (0 * 0 + 3 * x + 2) with (0 + (3 * x + 2)) by lia. replace (0 * 0 + 3 * x + 1) with (0 + (3 * x + 1)) by lia. replace (0 * 0 + 3 * x + 0) with (0 + 3 * x) by lia.
    rewrite R, G, B. reflexivity.
Qed.
Lemma pixel_skipn f size buf x y : 0 <= size -> 0 <= x -> 1 <= y -> pixel f size (skipn (Z.to_nat size) buf) x (y - 1) = pixel f size buf x y.
Proof.
  intros S X Y. assert (forall k n, 0 <= n -> 0 <= k -> byte_at (skipn (Z.to_nat size) buf) ((y - 1) * size + n * x + k) = byte_at buf (y * size + n * x + k)) as E.
  { intros k n N K. rewrite byte_at_skipn by nia. f_equal. nia. }
  unfold pixel. destruct f; rewrite ?E by lia; reflexivity.
Qed.
Lemma pixel_firstn f size buf x : 0 <= x -> bytes_of f * x + bytes_of f <= size -> pixel f 0 (firstn (Z.to_nat size) buf) x 0 = pixel f size buf x 0.
Proof. intros X B. unfold pixel. destruct f; cbn [bytes_of] in B; rewrite ?byte_at_firstn by lia; rewrite ?Z.mul_0_l; reflexivity. Qed.
Lemma file_color_app f l r i : settable f -> 0 <= i -> (i + bytes_of f <= Z.of_nat (length l) -> file_color f (l ++ r) i = file_color f l i) /\ (Z.of_nat (length l) <= i -> file_color f (l ++ r) i = file_color f r (i - Z.of_nat (length l))).
Proof.
  intros [-> | [-> | ->]] I; cbn [bytes_of]; unfold file_color; (split; intros H).
  all: rewrite !byte_at_app by lia.
  all: repeat match goal with |- context [?a <? ?b] => destruct (a <? b) eqn:?; try lia end; try reflexivity.
  all: repeat match goal with |- context [byte_at _ (?a + ?b - ?c)] => replace (a + b - c) with (a - c + b) by lia end; reflexivity.
Qed.
Lemma set_rows_ok f w size : settable f -> 0 <= w -> 3 * w < 2 ^ 32 -> bytes_of f * w <= size -> forall n src, Z.of_nat n * size <= Z.of_nat (length src) ->
  exists out, set_rows n f w size src = Ok out /\ Z.of_nat (length out) = Z.of_nat n * (bytes_of f * w) /\
    forall x y, 0 <= x < w -> 0 <= y < Z.of_nat n -> file_color f out ((y * w + x) * bytes_of f) = pixel f size src x y.
Proof.
  intros F W O S. assert (B0 : 1 <= bytes_of f) by (destruct F as [-> | [-> | ->]]; cbn; lia). assert (S0 : 0 <= size) by nia.
  induction n as [|n IH]; intros src L.
  { exists []. split; [reflexivity|]. split; [cbn [length]; lia|]. intros; lia. }
  cbn [set_rows]. destruct (Z.of_nat (length src) <? size) eqn:E; [nia|].
  destruct (pdf_line_ok f w (firstn (Z.to_nat size) src) F W O) as (l & PL & LL & PX); [rewrite firstn_length; lia|]. rewrite PL. cbn [bind].
  destruct (IH (skipn (Z.to_nat size) src)) as (r & SR & LR & PR); [rewrite skipn_length; nia|]. rewrite SR. cbn [bind].
  eexists. split; [reflexivity|]. split; [rewrite app_length; lia|]. intros x y X Y.
  destruct (file_color_app f l r ((y * w + x) * bytes_of f) F) as [A1 A2]; [nia|].
  destruct (Z.eq_dec y 0) as [->|Y0].
  - rewrite A1 by (rewrite LL; nia). replace ((0 * w + x) * bytes_of f) with (bytes_of f * x) by lia. rewrite PX by lia. apply pixel_firstn; nia.
  - rewrite A2 by (rewrite LL; nia). rewrite LL. replace ((y * w + x) * bytes_of f - bytes_of f * w) with (((y - 1) * w + x) * bytes_of f) by lia.
    rewrite PR by lia. apply pixel_skipn; lia.
Qed.
Lemma pixel_there f size buf x y h w : settable f -> 0 <= x < w -> 0 <= y < h -> bytes_of f * w <= size -> h * size <= Z.of_nat (length buf) -> exists c, pixel f size buf x y = Some c.
Proof.
  intros F X Y S L. assert (T : forall k, 0 <= k < bytes_of f -> exists b, byte_at buf (y * size + bytes_of f * x + k) = Some b).
  { intros k K. assert (B0 : 1 <= bytes_of f) by (destruct F as [-> | [-> | ->]]; cbn; lia). assert (bytes_of f * (x + 1) <= bytes_of f * w) by (apply Z.mul_le_mono_nonneg_l; lia).
    assert (bytes_of f * x + k < size) by lia. assert (0 <= bytes_of f * x) by nia. assert ((y + 1) * size <= h * size) by (apply Z.mul_le_mono_nonneg_r; lia). apply byte_at_in. nia. }
  unfold pixel. destruct F as [-> | [-> | ->]]; cbn [bytes_of] in T.
  - destruct (T 0) as (b & ->); [lia|]. eexists. reflexivity.
  - destruct (T 0) as (b & ->); [lia|]. destruct (T 1) as (b1 & ->); [lia|]. destruct (T 2) as (b2 & ->); [lia|]. eexists. reflexivity.
  - destruct (T 0) as (b & ->); [lia|]. destruct (T 1) as (b1 & ->); [lia|]. destruct (T 2) as (b2 & ->); [lia|]. eexists. reflexivity.
Qed.

(** ** Rows that are decoded *)
Lemma aligned_row f w : f <> FUnknown -> 0 <= w -> bytes_of f * w + 3 < 2 ^ 32 -> default_row f w = Ok (aligned (bytes_of f * w)).
Proof.
  intros N W O. unfold aligned. destruct f; cbn [bytes_of default_row] in *; try congruence; rewrite u32_small by lia; f_equal.
  - replace (1 * w + 3) with (w + 3) by lia. lia.
  - lia.
  - lia.
  - replace (4 * w + 3) with (3 + w * 4) by lia. rewrite Z.div_add by lia. change (3 / 4) with 0. lia.
  - replace (4 * w + 3) with (3 + w * 4) by lia. rewrite Z.div_add by lia. change (3 / 4) with 0. lia.
Qed.
Lemma aligned_le n : 0 <= n -> n <= aligned n < n + 4.
Proof. intros H. unfold aligned. pose proof (Z.div_mod (n + 3) 4 ltac:(lia)). pose proof (Z.mod_pos_bound (n + 3) 4 ltac:(lia)). lia. Qed.

(** The colours of pixel [x] that go into row [i] *)
Definition source (gray : bool) (w : Z) (data : list Z) (i x : Z) : option (Z * Z * Z) :=
  if gray then three (byte_at data (3 * w * i + x)) (byte_at data (3 * w * i + x)) (byte_at data (3 * w * i + x))
  else three (byte_at data (3 * w * i + 3 * x)) (byte_at data (3 * w * i + 3 * x + 1)) (byte_at data (3 * w * i + 3 * x + 2)).
Definition decodable (gray : bool) (f : pixfmt) : Prop := f <> FUnknown /\ (gray = false -> f <> FGray).
Definition width_of (gray : bool) : Z := if gray then 1 else 3.
Lemma alpha_ok f mask w i : 0 <= w -> 0 <= i -> w * i + w <= 2 ^ 32 -> 0 < w * i + w -> (mask = [] \/ w * i + w <= Z.of_nat (length mask)) ->
  exists a, match mask with [] => Ok (repeat 255 (Z.to_nat w)) | _ => span_at mask (u32 (i * w)) w end = Ok a /\ Z.of_nat (length a) = w /\
    forall x, 0 <= x < w -> (exists v, byte_at a x = Some v) /\ (f = FRgba \/ f = FBgra -> byte_at a x = veil f mask w i x).
Proof.
  intros W I O P [-> | L].
  { eexists. split; [reflexivity|]. split; [rewrite repeat_length; lia|]. intros x X. rewrite byte_at_repeat by exact X. split; [eauto|]. intros [-> | ->]; reflexivity. }
  destruct mask as [|m0 mask]; [cbn [length] in L; lia|].
  destruct (Z.eq_dec w 0) as [->|W0].
  { exists []. unfold span_at. rewrite Z.eqb_refl. split; [reflexivity|]. split; [reflexivity|]. intros; lia. }
  destruct (span_ok (m0 :: mask) (u32 (i * w)) w) as (a & E & N & A); [rewrite u32_small by nia; nia|lia|rewrite u32_small by nia; lia|].
  exists a. split; [exact E|]. split; [exact N|]. intros x X. split; [apply byte_at_in; lia|]. intros FF. rewrite A by exact X. rewrite u32_small by nia.
  replace (i * w + x) with (w * i + x) by lia. destruct FF as [-> | ->]; reflexivity.
Qed.
Lemma padded (out scan : list Z) : (length out <= length scan)%nat -> length (out ++ skipn (length out) scan) = length scan.
Proof. intros H. rewrite app_length, skipn_length. lia. Qed.
Lemma pixel_padded f out t x : 0 <= x -> bytes_of f * x + bytes_of f <= Z.of_nat (length out) -> pixel f 0 (out ++ t) x 0 = pixel f 0 out x 0 /\ opacity f 0 (out ++ t) x 0 = opacity f 0 out x 0.
Proof.
  intros X B. unfold pixel, opacity.
  assert (E : forall j, 0 <= j < bytes_of f -> byte_at (out ++ t) (0 * 0 + bytes_of f * x + j) = byte_at out (0 * 0 + bytes_of f * x + j)).
  { intros j J. rewrite byte_at_app by nia. destruct (_ <? _) eqn:F; [reflexivity|nia]. }
  destruct f; cbn [bytes_of] in E; rewrite ?E by lia; auto.
Qed.
Lemma row_ok gray f w data mask i scan : decodable gray f -> 0 < w -> 0 <= i -> 3 * w * i + width_of gray * w <= 2 ^ 32 -> 3 * w < 2 ^ 32 -> bytes_of f * w <= Z.of_nat (length scan) ->
  3 * w * i + width_of gray * w <= Z.of_nat (length data) -> (mask = [] \/ w * i + w <= Z.of_nat (length mask)) ->
  exists s, fetch_row gray f w data mask i scan = Ok s /\ length s = length scan /\
    forall x, 0 <= x < w -> pixel f 0 s x 0 = source gray w data i x /\ opacity f 0 s x 0 = veil f mask w i x.
Proof.
  intros [D1 D2] W I O O3 SC L M. destruct (alpha_ok f mask w i) as (a & EA & LA & A); [lia|lia|destruct gray; cbn [width_of] in O; nia|nia|exact M|].
  unfold fetch_row. assert (U : u32 (i * u32 (3 * w)) = 3 * w * i). { rewrite (u32_small (3 * w)) by lia. rewrite u32_small; [lia|]. destruct gray; cbn [width_of] in O; nia. }
  rewrite U. destruct gray; cbn [width_of] in *.
  - destruct (span_ok data (3 * w * i) w) as (s & E & N & S); [nia|lia|lia|].
    assert (exists c, gray_line f = Ok c /\ (forall g a, length (c g a) = Z.to_nat (bytes_of f)) /\ forall g a x out, 0 <= x -> (forall j, 0 <= j < bytes_of f -> byte_at out (bytes_of f * x + j) = byte_at (c g a) j) ->
      pixel f 0 out x 0 = Some (g, g, g) /\ opacity f 0 out x 0 = (match f with FRgba | FBgra => Some a | _ => Some 255 end)) as (c & EC & LC & PC).
    { destruct f; try congruence; (eexists; split; [reflexivity|]; split; [reflexivity|]); intros g a' x out X J; cbn [bytes_of] in J; unfold pixel, opacity; rewrite Z.mul_0_l, ?Z.add_0_l, ?J by lia; split; reflexivity. }
    rewrite EC, EA, E. cbn [bind].
    assert (LO : length (conv1 c s a) = (Z.to_nat (bytes_of f) * Z.to_nat w)%nat) by (apply conv1_length; [exact LC|lia|lia]).
    assert (FIT : (length (conv1 c s a) <= length scan)%nat) by (rewrite LO; nia).
    destruct (length scan <? length (conv1 c s a))%nat eqn:CMP; [apply Nat.ltb_lt in CMP; lia|].
    eexists. split; [reflexivity|]. split; [apply padded; exact FIT|]. intros x X.
    destruct (pixel_padded f (conv1 c s a) (skipn (length (conv1 c s a)) scan) x) as [-> ->]; [lia|rewrite LO; destruct f; cbn [bytes_of]; nia|].
    destruct (A x X) as [(v & V) AV]. destruct (byte_at_in s x) as (g & G); [lia|].
    destruct (PC g v x (conv1 c s a)) as [-> ->]; [lia| |].
    { intros j J. apply (conv1_at c (bytes_of f) s a w); auto. }
    rewrite S in G by lia. unfold source. rewrite G. split; [reflexivity|]. destruct f; try reflexivity; rewrite <- AV by auto; symmetry; exact V.
  - destruct (span_ok data (3 * w * i) (3 * w)) as (s & E & N & S); [nia|lia|lia|].
    assert (exists c, rgb_line f = Ok c /\ (forall r g b a, length (c r g b a) = Z.to_nat (bytes_of f)) /\ forall r g b a x out, 0 <= x -> (forall j, 0 <= j < bytes_of f -> byte_at out (bytes_of f * x + j) = byte_at (c r g b a) j) ->
      pixel f 0 out x 0 = Some (r, g, b) /\ opacity f 0 out x 0 = (match f with FRgba | FBgra => Some a | _ => Some 255 end)) as (c & EC & LC & PC).
    { specialize (D2 eq_refl). destruct f; try congruence; (eexists; split; [reflexivity|]; split; [reflexivity|]); intros r g b a' x out X J; cbn [bytes_of] in J; unfold pixel, opacity; rewrite Z.mul_0_l, ?Z.add_0_l, ?J by lia; split; reflexivity. }
    rewrite EC, EA, E. cbn [bind].
    assert (LO : length (conv3 c s a) = (Z.to_nat (bytes_of f) * Z.to_nat w)%nat) by (apply conv3_length; [exact LC|lia|lia]).
    assert (FIT : (length (conv3 c s a) <= length scan)%nat) by (rewrite LO; nia).
    destruct (length scan <? length (conv3 c s a))%nat eqn:CMP; [apply Nat.ltb_lt in CMP; lia|].
    eexists. split; [reflexivity|]. split; [apply padded; exact FIT|]. intros x X.
    destruct (pixel_padded f (conv3 c s a) (skipn (length (conv3 c s a)) scan) x) as [-> ->]; [lia|rewrite LO; destruct f; cbn [bytes_of]; nia|].
    destruct (A x X) as [(v & V) AV]. destruct (byte_at_in s (3 * x)) as (r & R); [lia|]. destruct (byte_at_in s (3 * x + 1)) as (g & G); [lia|]. destruct (byte_at_in s (3 * x + 2)) as (b & B); [lia|].
    destruct (PC r g b v x (conv3 c s a)) as [-> ->]; [lia| |].
    { intros j J. apply (conv3_at c (bytes_of f) s a w); auto. }
    rewrite S in R, G, B by lia. unfold source. rewrite R. replace (3 * w * i + 3 * x + 1) with (3 * w * i + (3 * x + 1)) by lia. replace (3 * w * i + 3 * x + 2) with (3 * w * i + (3 * x + 2)) by lia.
    rewrite G, B. split; [reflexivity|]. destruct f; try reflexivity; rewrite <- AV by auto; symmetry; exact V.
Qed.
