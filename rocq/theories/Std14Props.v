(** Property C164: the widths of standard fonts *)
From Coq Require Import String QArith.
From Verif Require Import Base TokModel OwnModel ColorModel LinkSpec Std14Model Std14Spec.
Local Open Scope Z_scope.

Lemma reals_spec l : (exists q, reals l = Ok q) <-> Forall (fun o => real_of o <> None) l.
Proof.
  induction l as [|o l IH]; [split; [constructor|exists []; reflexivity]|]. cbn [reals]. destruct (real_of o) as [x|] eqn:R.
  - split.
    + intros [q E]. constructor; [rewrite R; discriminate|]. apply IH. destruct (reals l) as [r|e| |]; try discriminate E. exists r. reflexivity.
    + intros F. inversion F as [|? ? A B]; subst. apply IH in B as [r ->]. exists (x :: r). reflexivity.
  - split; [intros [q E]; discriminate E|]. intros F. inversion F as [|? ? A B]; subst. destruct (A R).
Qed.
Lemma reals_nth l : forall q, reals l = Ok q -> length q = length l /\ forall i o, nth_error l i = Some o -> exists x, real_of o = Some x /\ nth_error q i = Some x.
Proof.
  induction l as [|o l IH]; intros q E; cbn [reals] in E; [injection E as <-; split; [reflexivity|intros [|i] o; discriminate]|].
  destruct (real_of o) as [x|] eqn:R; [|discriminate]. destruct (reals l) as [r|e| |] eqn:L; try discriminate E. injection E as <-.
  destruct (IH r eq_refl) as [A B]. split; [cbn; rewrite A; reflexivity|]. intros [|i] o0 G; [injection G as <-; exists x; split; [exact R|reflexivity]|].
  exact (B i o0 G).
Qed.

(** ** New fonts and fonts without widths *)

(** The glyph of a character has its own width *)
Theorem C164_glyphs d map cp : (forall a g g', In (a, g) map -> In (a, g') map -> g = g') -> (forall a g, In (a, g) map -> 0 <= g) -> cp < 65535 ->
  forall w, font_gives map (d_widths d) cp w -> exists g, try_gid map cp = Some g /\ (glyph_width d None g == w)%Q.
Proof.
  intros U P L w (g & z & M & N & W). unfold try_gid. rewrite (proj2 (Z.leb_gt 65535 cp) L).
  destruct (find (fun e => fst e =? cp) map) as [[a g']|] eqn:F.
  - apply find_some in F as [I E]. cbn in E. apply Z.eqb_eq in E. subst a. exists g'. split; [reflexivity|]. rewrite (U cp g' g I M).
    unfold glyph_width, try_width. assert (X : (Z.to_nat g < length (d_widths d))%nat) by (apply nth_error_Some; rewrite N; discriminate).
    pose proof (P cp g M) as P0. destruct (Z.of_nat (length (d_widths d)) <=? g) eqn:B; [apply Z.leb_le in B; lia|].
    rewrite (nth_error_nth _ _ 0 N). rewrite W. reflexivity.
  - pose proof (find_none _ _ F (cp, g) M) as X. cbn in X. rewrite Z.eqb_refl in X. discriminate X.
Qed.
Print Assumptions C164_glyphs.

(** In a font that was read, without widths and limits, each code from 33 to 126 has the width of the character before it; in WinAnsiEncoding these
    codes are their characters *)
Theorem C164_ascii_refuted c : 33 <= c <= 126 -> exists w, code_width times_roman None (mk_enc None true) c = Ok w /\
  font_gives times_glyphs (d_widths times_roman) (c - 1) w.
Proof.
  intros L. exists (thousandth (nth (Z.to_nat (c - 32)) (d_widths times_roman) 0)).
  assert (E : u32 (c - 32) = c - 32) by (unfold u32; apply Z.mod_small; lia).
  assert (N : (Z.to_nat (c - 32) < length (d_widths times_roman))%nat) by (change (length (d_widths times_roman)) with 230%nat; lia).
  split.
  - unfold code_width, map_code. cbn [e_limits bind]. rewrite E. unfold glyph_width, try_width.
    destruct (Z.of_nat (length (d_widths times_roman)) <=? c - 32) eqn:B; [apply Z.leb_le in B; lia|reflexivity].
  - exists (c - 32), (nth (Z.to_nat (c - 32)) (d_widths times_roman) 0). split; [|split; [apply nth_error_nth', N|reflexivity]].
    assert (K : forallb (fun n => existsb (fun e => (fst e =? 32 + Z.of_nat n) && (snd e =? 1 + Z.of_nat n)) times_glyphs) (seq 0 94) = true) by (vm_compute; reflexivity).
    assert (M : In (Z.to_nat (c - 33)) (seq 0 94)) by (apply in_seq; lia). rewrite forallb_forall in K. specialize (K (Z.to_nat (c - 33))). rewrite Z2Nat.id in K by lia.
    destruct (proj1 (existsb_exists _ _) (K M)) as ([a g] & I0 & Q). cbn [fst snd] in Q.
    apply andb_true_iff in Q as [Qa Qg]. apply Z.eqb_eq in Qa, Qg. replace (c - 1) with a by lia. replace (c - 32) with g by lia. exact I0.
Qed.
Print Assumptions C164_ascii_refuted.
Theorem C164_letter_refuted : exists w v, code_width times_roman None (mk_enc None true) 65 = Ok w /\
  font_gives times_glyphs (d_widths times_roman) 65 v /\ ~ (w == v)%Q.
Proof.
  exists (thousandth 921), (thousandth 722). split; [reflexivity|]. split; [|vm_compute; discriminate].
  exists 34, 722. split; [vm_compute; repeat (first [left; reflexivity|right])|]. split; [reflexivity|]. vm_compute. reflexivity.
Qed.
Print Assumptions C164_letter_refuted.

(** ** Fonts with widths *)

(** The font is refused exactly when they are not an array of numbers *)
Theorem C164_refused look d : (exists p, parse_widths look (Some d) = Ok p) <->
  match dict_find look (bs "Widths") d with None => True | Some (OArr l) => Forall (fun o => real_of o <> None) l | Some _ => False end.
Proof.
  unfold parse_widths. destruct (dict_find look (bs "Widths") d) as [[| | | | | | |l|]|];
    try (split; [intros [p E]; discriminate E|intros []]); [|split; [intros _; exact I|intros _; exists None; reflexivity]].
  rewrite <- reals_spec. split.
  - intros [p E]. destruct (reals l) as [q|e| |]; try discriminate E. exists q. reflexivity.
  - intros [q ->]. eexists. reflexivity.
Qed.
Print Assumptions C164_refused.

(** Every code that the array gives a width to has the width 0; the numbers are those of as many codes after them, and in thousandths *)
Theorem C164_widths_refuted look d l p f c g : dict_find look (bs "Widths") d = Some (OArr l) -> parse_widths look (Some d) = Ok p ->
  0 <= f -> f <= g -> let e := mk_enc (Some (f, g)) true in
  glyph_count c p = 2 * Z.of_nat (length l) /\
  (forall k w, array_gives f l k w -> k < 2 ^ 32 -> code_width c p e k = Ok 0%Q) /\
  (forall k w, array_gives f l k w -> k + Z.of_nat (length l) < 2 ^ 32 -> exists v, code_width c p e (k + Z.of_nat (length l)) = Ok v /\ (v == 1000 * w)%Q).
Proof.
  intros D P F G e. unfold parse_widths in P. rewrite D in P. destruct (reals l) as [q|x| |] eqn:R; try discriminate P. cbn [bind] in P. injection P as <-.
  destruct (reals_nth l q R) as [L N]. split; [cbn [glyph_count]; rewrite app_length, repeat_length; lia|].
  assert (S : (Z.of_nat (length (repeat 0%Q (length l) ++ q)) = 2 * Z.of_nat (length l))) by (rewrite app_length, repeat_length; lia).
  split; intros k w (o & y & B & O & Y & W) K; unfold code_width, map_code, e; cbn [e_limits e_simple]; rewrite (proj2 (Z.ltb_ge g f) G); cbn [bind].
  - assert (T : (Z.to_nat (k - f) < length l)%nat) by (apply nth_error_Some; rewrite O; discriminate).
    unfold u32. rewrite Z.mod_small by lia. unfold glyph_width, try_width. rewrite S.
    destruct (2 * Z.of_nat (length l) <=? k - f) eqn:X; [apply Z.leb_le in X; lia|]. rewrite app_nth1 by (rewrite repeat_length; exact T).
    rewrite nth_repeat. reflexivity.
  - assert (T : (Z.to_nat (k - f) < length l)%nat) by (apply nth_error_Some; rewrite O; discriminate).
    unfold u32. rewrite Z.mod_small by lia. unfold glyph_width, try_width. rewrite S.
    destruct (2 * Z.of_nat (length l) <=? k + Z.of_nat (length l) - f) eqn:X; [apply Z.leb_le in X; lia|].
    rewrite app_nth2 by (rewrite repeat_length; lia). rewrite repeat_length.
    replace (Z.to_nat (k + Z.of_nat (length l) - f) - length l)%nat with (Z.to_nat (k - f)) by lia.
    destruct (N _ _ O) as (x & X1 & X2). rewrite Y in X1. injection X1 as <-. rewrite (nth_error_nth _ _ 0%Q X2). eexists. split; [reflexivity|].
    rewrite W. field.
Qed.
Print Assumptions C164_widths_refuted.

Example C164_case :
  let d := [(bs "Widths", OArr [ONum 250; ONum 333; OReal 4085 1])] in
  let look := fun _ : Z * Z => @None obj in
  parse_widths look (Some d) = Ok (Some [0; 0; 0; 250; 333; 4085 # 10]%Q) /\
  code_width times_roman (Some [0; 0; 0; 250; 333; 4085 # 10]%Q) (mk_enc (Some (32, 34)) true) 33 = Ok 0%Q /\
  code_width times_roman (Some [0; 0; 0; 250; 333; 4085 # 10]%Q) (mk_enc (Some (32, 34)) true) 36 = Ok 333%Q /\
  parse_widths look (Some [(bs "Widths", OArr [ORef 5 0])]) = Err EInvalidDataType /\
  try_gid times_glyphs 65 = Some 34 /\ (glyph_width times_roman None 34 == 722 # 1000)%Q /\
  code_width times_roman None (mk_enc None true) 65 = Ok (thousandth 921).
Proof. repeat split; vm_compute; reflexivity. Qed.

(** A glyph that the font does not have gets the default width, with and without /Widths *)
Theorem C164_absent d p g : (match p with None => Z.of_nat (length (d_widths d)) | Some l => Z.of_nat (length l) end <= g) ->
  (glyph_width d p g * 1000 == inject_Z (d_default d))%Q.
Proof.
  intros L. unfold glyph_width, try_width, thousandth. destruct p as [l|]; rewrite (proj2 (Z.leb_le _ _) L); field.
Qed.
Print Assumptions C164_absent.
Example C164_absent_case : (glyph_width times_roman None 100000 * 1000 == inject_Z (d_default times_roman))%Q /\ (glyph_width times_roman (Some [1 # 2]) 1 * 1000 == inject_Z (d_default times_roman))%Q.
Proof. split; vm_compute; reflexivity. Qed.
