(** Properties C107 to C109: subsets of TrueType fonts. *)
From Coq Require Import Lia String.
From Verif Require Import Base ChainProofs TtfModel TtfSpec TtfReadProofs TtfLoadProofs TtfOrderProofs TtfWriteProofs TtfSafeProofs TtfPropLemmas.
Local Open Scope Z_scope.

(** ** C107: a subset shows the glyphs asked for.
    Partial: the glyphs are distinct and not 0, and no empty glyph is before one of components. The metrics are in the order of the glyphs only
    if those with full metrics are first. *)
Theorem C107_subset_partial f gids : valid f -> empty_ok f -> NoDup gids -> Forall (fun g => 0 < g < glyph_count f) gids ->
  exists out ord, build_font f gids = Ok out /\ firstn (S (length gids)) ord = 0 :: gids /\ NoDup ord /\ (forall g, In g ord <-> needed f gids g) /\ shows_outlines f ord out /\ (full_first f ord -> shows_metrics f ord out).
Proof. intros A B C D. destruct (subset_ok f gids A B C D) as (out & ord & X1 & X2 & X3 & X4 & X5 & X6 & _). exists out, ord. split; [exact X1|]. split; [exact X2|]. split; [exact X3|]. split; [assumption|]. split; assumption. Qed.
Print Assumptions C107_subset_partial.
(** All that are needed have full metrics *)
Theorem C107_full_partial f gids : valid f -> empty_ok f -> NoDup gids -> Forall (fun g => 0 < g < glyph_count f) gids -> (forall g, needed f gids g -> g < hcount f) ->
  exists out ord, build_font f gids = Ok out /\ firstn (S (length gids)) ord = 0 :: gids /\ NoDup ord /\ (forall g, In g ord <-> needed f gids g) /\ shows_glyphs f ord out.
Proof.
  intros A B C D E. destruct (C107_subset_partial f gids A B C D) as (out & ord & X1 & X2 & X3 & X4 & [X5 X6] & X7). exists out, ord. split; [exact X1|]. split; [exact X2|]. split; [exact X3|]. split; [exact X4|].
  assert (L : forall g, In g ord -> g <? hcount f = true) by (intros g I; apply Z.ltb_lt, E, X4, I).
  assert (FF : full_first f ord).
  { unfold full_first, full. clear - L. induction ord as [|x l IH]; [reflexivity|]. cbn [filter]. rewrite (L x (or_introl eq_refl)). cbn [negb app]. f_equal. apply IH. intros g I. apply L. right. exact I. }
  specialize (X7 FF). constructor; [exact X5|exact X6| |]; intros i g N; destruct (X7 i g N) as [Y1 Y2]; [|exact Y1]. rewrite (L g (nth_error_In _ _ N)) in Y2. exact Y2.
Qed.
Print Assumptions C107_full_partial.
(** A font of which all glyphs are of the same width *)
Lemma parts_above g o l : bytes_ok g -> parts g o l -> Forall (fun p => 0 <= snd p) l.
Proof. intros B. induction 1; repeat constructor; try assumption; apply (at16_range g _ B). Qed.
Lemma needed_range f gids : valid f -> Forall (fun g => 0 < g < glyph_count f) gids -> forall g, needed f gids g -> 0 <= g.
Proof.
  intros V F. rewrite Forall_forall in F. induction 1 as [|g I|g l p c N IH C P I]; [lia|pose proof (F g I); lia|].
  assert (B : bytes_ok (glyph f g)) by (unfold glyph; apply bytes_slice, bytes_table, (v_bytes f V)). pose proof (parts_above _ _ _ B P) as A. rewrite Forall_forall in A. exact (A _ I).
Qed.
Theorem C107_mono_partial f gids : valid f -> empty_ok f -> NoDup gids -> Forall (fun g => 0 < g < glyph_count f) gids -> hcount f = 1 ->
  exists out ord, build_font f gids = Ok out /\ firstn (S (length gids)) ord = 0 :: gids /\ NoDup ord /\ (forall g, In g ord <-> needed f gids g) /\ shows_glyphs f ord out.
Proof.
  intros A B C D E. destruct (C107_subset_partial f gids A B C D) as (out & ord & X1 & X2 & X3 & X4 & [X5 X6] & X7). exists out, ord. split; [exact X1|]. split; [exact X2|]. split; [exact X3|]. split; [exact X4|].
  destruct ord as [|z l]; [discriminate X2|]. cbn [firstn] in X2. assert (Ez : z = 0) by congruence. subst z. assert (NL : ~ In 0 l) by (inversion X3; assumption).
  assert (L : forall g, In g l -> g <? hcount f = false). { intros g I. assert (N : needed f gids g) by (apply X4; right; exact I). pose proof (needed_range f gids A D g N). apply Z.ltb_ge. assert (g <> 0) by (intros ->; exact (NL I)). lia. }
  assert (F1 : filter (fun g => g <? hcount f) l = []). { clear - L. induction l as [|x l IH]; [reflexivity|]. cbn [filter]. rewrite (L x (or_introl eq_refl)). apply IH. intros g I. apply L. right. exact I. }
  assert (F2 : filter (fun g => negb (g <? hcount f)) l = l). { clear - L. induction l as [|x l IH]; [reflexivity|]. cbn [filter]. rewrite (L x (or_introl eq_refl)). cbn [negb]. f_equal. apply IH. intros g I. apply L. right. exact I. }
  assert (Z0 : 0 <? hcount f = true) by (rewrite E; reflexivity). assert (FU : full f (0 :: l) = [0]) by (unfold full; cbn [filter]; rewrite Z0, F1; reflexivity).
  assert (FF : full_first f (0 :: l)) by (unfold full_first; rewrite FU; cbn [filter]; rewrite Z0, F2; reflexivity).
  specialize (X7 FF). unfold shows_metrics in X7. rewrite FU in X7. cbn [last] in X7. constructor; [exact X5|exact X6| |]; intros i g N; destruct (X7 i g N) as [Y1 Y2]; [|exact Y1]. rewrite Y2. unfold advance. rewrite E.
  assert (0 <= g). { assert (M : needed f gids g) by (apply X4, (nth_error_In _ _ N)). pose proof (needed_range f gids A D g M). lia. } destruct (g <? 1); f_equal; lia.
Qed.
Print Assumptions C107_mono_partial.
(** Glyph 1 is of 3 and 2, which become 2 and 3 *)
Example C107_case : let out := built font4 [1] in
  glyph out 1 = [255; 255; 0; 0; 0; 0; 0; 0; 0; 0; 0; 32; 0; 2; 1; 1; 0; 0; 0; 3; 4; 4] /\ glyph out 2 = glyph font4 3 /\ glyph out 3 = glyph font4 2 /\ map (advance out) [0; 1; 2; 3] = [10; 11; 13; 12] /\ glyph_count out = 4.
Proof. vm_compute. repeat split. Qed.
Example C107_applies : valid font4 /\ empty_ok font4 /\ glyph_count font4 = 4 /\ forall g, needed font4 [1] g -> g < hcount font4.
Proof.
  split; [exact font4_valid|]. split; [exact font4_empty|]. split; [reflexivity|]. intros g N. apply (closed_check font4 (fun x => (0 <=? x) && (x <? 4)) [1]) in N; [|intros x X; change (glyph_count font4) with 4; lia|vm_compute; reflexivity|reflexivity|reflexivity]. change (hcount font4) with 4. lia.
Qed.
(** Glyph 0 in the list: the components of the glyphs are others *)
Lemma no_order f gids out i l : forall ord, shows_glyphs f ord out -> nth_error ord i <> None -> (forall a g, a = glyph f g -> nth_error ord i = Some g -> parts (glyph f g) 10 l /\ compound a = true) -> forall l', get_parts (length out) (glyph out (Z.of_nat i)) 10 = Some l' -> firstn (S (length gids)) ord = 0 :: gids ->
  Forall2 (fun p q => nth_error ord (Z.to_nat (snd q)) = Some (snd p)) l l'.
Proof.
  intros ord S N H l' G _. destruct (nth_error ord i) as [g|] eqn:E; [|contradiction]. destruct (H _ g eq_refl eq_refl) as [P C]. pose proof (s_glyph _ _ _ S i g E) as R. unfold renumbered in R. rewrite C in R. destruct R as (_ & l1 & l2 & P1 & P2 & _ & F & _). apply get_parts_ok in G. rewrite (parts_same _ _ _ _ P P1), (parts_same _ _ _ _ G P2). exact F.
Qed.
Lemma pair_parts : parts (glyph font4 1) 10 [(12, 3); (18, 2)] /\ compound (glyph font4 1) = true.
Proof. split; [|reflexivity]. apply (get_parts_ok 30). vm_compute. reflexivity. Qed.
Theorem C107_zero_refuted : exists f gids out, valid f /\ empty_ok f /\ NoDup gids /\ Forall (fun g => 0 <= g < glyph_count f) gids /\ (forall g, needed f gids g -> g < hcount f) /\ build_font f gids = Ok out /\
  forall ord, firstn (S (length gids)) ord = 0 :: gids -> ~ shows_glyphs f ord out.
Proof.
  exists font4, [0; 1], (built font4 [0; 1]). split; [exact font4_valid|]. split; [exact font4_empty|]. split; [apply nodupb_ok; reflexivity|]. split; [repeat constructor; vm_compute; congruence|]. split.
  { intros g N. apply (closed_check font4 (fun x => (0 <=? x) && (x <? 4)) [0; 1]) in N; [|intros x X; change (glyph_count font4) with 4; lia|vm_compute; reflexivity|reflexivity|reflexivity]. change (hcount font4) with 4. lia. }
  split; [vm_compute; reflexivity|]. intros ord P S. destruct ord as [|a [|b [|c ord]]]; try discriminate P. cbn [length firstn] in P. injection P as -> -> ->.
  assert (F : Forall2 (fun p q => nth_error (0 :: 0 :: 1 :: ord) (Z.to_nat (snd q)) = Some (snd p)) [(12, 3); (18, 2)] [(12, 2); (18, 3)]).
  { apply (no_order font4 [0; 1] (built font4 [0; 1]) 2 _ _ S); [discriminate| |vm_compute; reflexivity|reflexivity]. intros a g -> E. injection E as <-. exact pair_parts. }
  inversion F as [|p q l l' H1 H2]; subst. discriminate H1.
Qed.
Print Assumptions C107_zero_refuted.
(** The same glyph twice *)
Theorem C107_twice_refuted : exists f gids out, valid f /\ empty_ok f /\ Forall (fun g => 0 < g < glyph_count f) gids /\ (forall g, needed f gids g -> g < hcount f) /\ build_font f gids = Ok out /\
  forall ord, firstn (S (length gids)) ord = 0 :: gids -> ~ shows_glyphs f ord out.
Proof.
  exists font4, [1; 1], (built font4 [1; 1]). split; [exact font4_valid|]. split; [exact font4_empty|]. split; [repeat constructor; vm_compute; congruence|]. split.
  { intros g N. apply (closed_check font4 (fun x => (0 <=? x) && (x <? 4)) [1; 1]) in N; [|intros x X; change (glyph_count font4) with 4; lia|vm_compute; reflexivity|reflexivity|reflexivity]. change (hcount font4) with 4. lia. }
  split; [vm_compute; reflexivity|]. intros ord P S. destruct ord as [|a [|b [|c ord]]]; try discriminate P. cbn [length firstn] in P. injection P as -> -> ->.
  assert (F : Forall2 (fun p q => nth_error (0 :: 1 :: 1 :: ord) (Z.to_nat (snd q)) = Some (snd p)) [(12, 3); (18, 2)] [(12, 2); (18, 3)]).
  { apply (no_order font4 [1; 1] (built font4 [1; 1]) 1 _ _ S); [discriminate| |vm_compute; reflexivity|reflexivity]. intros a g -> E. injection E as <-. exact pair_parts. }
  inversion F as [|p q l l' H1 H2]; subst. discriminate H1.
Qed.
Print Assumptions C107_twice_refuted.
(** A glyph without full metrics has the advance of another *)
Theorem C107_metrics_refuted : exists f gids out, valid f /\ empty_ok f /\ NoDup gids /\ Forall (fun g => 0 < g < glyph_count f) gids /\ build_font f gids = Ok out /\
  forall ord, firstn (S (length gids)) ord = 0 :: gids -> ~ shows_glyphs f ord out.
Proof.
  exists font2, [3], (built font2 [3]). split; [exact font2_valid|]. split; [exact font2_empty|]. split; [apply nodupb_ok; reflexivity|]. split; [repeat constructor; vm_compute; congruence|]. split; [vm_compute; reflexivity|].
  intros ord P S. destruct ord as [|a [|b ord]]; try discriminate P. cbn [length firstn] in P. injection P as -> ->. pose proof (s_advance _ _ _ S 1 3 eq_refl) as A. vm_compute in A. discriminate A.
Qed.
Print Assumptions C107_metrics_refuted.
(** A glyph without full metrics before one with them: neither has its side bearing *)
Theorem C107_order_refuted : exists f gids out, valid f /\ empty_ok f /\ NoDup gids /\ Forall (fun g => 0 < g < glyph_count f) gids /\ build_font f gids = Ok out /\
  forall ord, firstn (S (length gids)) ord = 0 :: gids -> ~ shows_metrics f ord out.
Proof.
  exists font2, [3; 1], (built font2 [3; 1]). split; [exact font2_valid|]. split; [exact font2_empty|]. split; [apply nodupb_ok; reflexivity|]. split; [repeat constructor; vm_compute; congruence|]. split; [vm_compute; reflexivity|].
  intros ord P S. destruct ord as [|a [|b [|c ord]]]; try discriminate P. cbn [length firstn] in P. injection P as -> -> ->. pose proof (proj1 (S 1%nat 3 eq_refl)) as A. vm_compute in A. discriminate A.
Qed.
Print Assumptions C107_order_refuted.
(** An empty glyph at the end of the file; an empty glyph before one of components, which are then in the subset *)
Theorem C107_empty_refuted : (exists f gids, valid f /\ NoDup gids /\ Forall (fun g => 0 < g < glyph_count f) gids /\ (forall g, needed f gids g -> g < hcount f) /\ build_font f gids = Err EUnexpectedEOF) /\
  (exists f gids out, valid f /\ NoDup gids /\ Forall (fun g => 0 < g < glyph_count f) gids /\ (forall g, needed f gids g -> g < hcount f) /\ build_font f gids = Ok out /\
    forall ord, NoDup ord -> (forall g, In g ord <-> needed f gids g) -> ~ shows_glyphs f ord out).
Proof.
  split.
  - exists font_empty, [1]. split; [exact font_empty_valid|]. split; [apply nodupb_ok; reflexivity|]. split; [repeat constructor; vm_compute; congruence|]. split; [|vm_compute; reflexivity].
    intros g N. apply (closed_check font_empty (fun x => (0 <=? x) && (x <? 2)) [1]) in N; [|intros x X; change (glyph_count font_empty) with 2; lia|vm_compute; reflexivity|reflexivity|reflexivity]. change (hcount font_empty) with 2. lia.
  - exists font_next, [1], (built font_next [1]). assert (K : forall g, needed font_next [1] g -> 0 <= g < 2).
    { intros g N. apply (closed_check font_next (fun x => (0 <=? x) && (x <? 2)) [1]) in N; [|intros x X; change (glyph_count font_next) with 4; lia|vm_compute; reflexivity|reflexivity|reflexivity]. lia. }
    split; [exact font_next_valid|]. split; [apply nodupb_ok; reflexivity|]. split; [repeat constructor; vm_compute; congruence|]. split; [intros g N; apply K in N; change (hcount font_next) with 4; lia|]. split; [vm_compute; reflexivity|].
    intros ord N M S. pose proof (s_count _ _ _ S) as C. pose proof (few 2 ord N (fun k I => K k (proj1 (M k) I))) as L. vm_compute (glyph_count _) in C. unfold size in C. lia.
Qed.
Print Assumptions C107_empty_refuted.

(** ** C108: the directory of a subset.
    Partial: as C107; the four bytes that are changed in the head table are the revision of the font, from byte 4 on. *)
Theorem C108_directory_partial f gids : valid f -> empty_ok f -> NoDup gids -> Forall (fun g => 0 < g < glyph_count f) gids -> exists out, build_font f gids = Ok out /\ directory 4 f out.
Proof. intros A B C D. destruct (subset_ok f gids A B C D) as (out & ord & X1 & _ & _ & _ & _ & _ & X). exists out. split; assumption. Qed.
Print Assumptions C108_directory_partial.
Example C108_case : let out := built font4 [1] in map en_tag (dir out) = map (fun s => word s 0) [bs "cvt "; bs "glyf"; bs "head"; bs "hhea"; bs "hmtx"; bs "loca"; bs "maxp"] /\ map en_off (dir out) = [124; 128; 164; 220; 256; 272; 284] /\ map en_len (dir out) = [4; 36; 54; 36; 16; 10; 8] /\ table out (bs "cvt ") = [1; 2; 3; 4].
Proof. vm_compute. repeat split. Qed.
(** The adjustment of the checksum, bytes 8 to 11, is that of the original; the revision is lost *)
Theorem C108_adjustment_refuted : exists f gids out, valid f /\ empty_ok f /\ NoDup gids /\ Forall (fun g => 0 < g < glyph_count f) gids /\ (forall g, needed f gids g -> g < hcount f) /\ build_font f gids = Ok out /\
  ~ directory 8 f out /\ at32 (table out (bs "head")) 8 = at32 (table f (bs "head")) 8.
Proof.
  exists font4, [1], (built font4 [1]). split; [exact font4_valid|]. split; [exact font4_empty|]. split; [apply nodupb_ok; reflexivity|]. split; [repeat constructor; vm_compute; congruence|]. split; [apply C107_applies|]. split; [vm_compute; reflexivity|]. split; [|vm_compute; reflexivity].
  intros D. assert (R : 0 <= 7 < size (table font4 (bs "head"))) by (vm_compute; split; [discriminate|reflexivity]). pose proof (d_head _ _ _ D 7 R (or_introl eq_refl)) as X. vm_compute in X. discriminate X.
Qed.
Print Assumptions C108_adjustment_refuted.
(** The checksums are not those of the tables *)
Theorem C108_checksums_refuted : exists f gids out, valid f /\ empty_ok f /\ NoDup gids /\ Forall (fun g => 0 < g < glyph_count f) gids /\ (forall g, needed f gids g -> g < hcount f) /\ build_font f gids = Ok out /\ ~ sums_ok out.
Proof.
  exists font4, [1], (built font4 [1]). split; [exact font4_valid|]. split; [exact font4_empty|]. split; [apply nodupb_ok; reflexivity|]. split; [repeat constructor; vm_compute; congruence|]. split; [apply C107_applies|]. split; [vm_compute; reflexivity|].
  intros S. assert (I : In (entry_at (built font4 [1]) 0) (dir (built font4 [1]))) by (vm_compute; left; reflexivity). specialize (S _ I). vm_compute in S. specialize (S eq_refl). discriminate S.
Qed.
Print Assumptions C108_checksums_refuted.
(** The fields for searching are wrong in every subset of every font *)
Theorem C108_search_refuted f gids out : build_font f gids = Ok out -> ~ search_ok out.
Proof. apply header_wrong. Qed.
Print Assumptions C108_search_refuted.
Example C108_search_case : let out := built font4 [1] in at16 out 4 = 7 /\ at16 out 6 = 8 /\ at16 out 8 = 3 /\ at16 out 10 = 104.
Proof. vm_compute. repeat split. Qed.

(** ** C109: building ends, and is defined for valid fonts.
    Partial: for fonts that are not valid it is not. *)
Theorem C109_ends f gids : bytes_ok f -> size f < 2 ^ 31 -> Forall (fun g => 0 <= g) gids -> build_font f gids <> Fuel.
Proof. apply build_ends. Qed.
Print Assumptions C109_ends.
Theorem C109_defined f gids : valid f -> Forall (fun g => 0 <= g) gids -> build_font f gids <> UB.
Proof. intros V N. apply build_defined; assumption. Qed.
Print Assumptions C109_defined.
Example C109_case : build_font font4 [9; 9; 0] = Err EInternalLogic /\ build_font [] [] = Err EValueOutOfRange.
Proof. vm_compute. split; reflexivity. Qed.
(** A head table of 6 bytes; components after the end of the glyph *)
Theorem C109_short_refuted : exists f gids, bytes_ok f /\ size f < 2 ^ 31 /\ Forall (fun g => 0 <= g) gids /\ size (table f (bs "head")) = 6 /\ build_font f gids = UB.
Proof. exists font_head, []. split; [apply bytes_okb_iff; vm_compute; reflexivity|]. split; [vm_compute; reflexivity|]. split; [constructor|]. split; vm_compute; reflexivity. Qed.
Print Assumptions C109_short_refuted.
Theorem C109_outside_refuted : exists f gids, bytes_ok f /\ size f < 2 ^ 31 /\ Forall (fun g => 0 <= g) gids /\ size (glyph f 1) = 6 /\ build_font f gids = UB.
Proof. exists font_outside, [1]. split; [apply bytes_okb_iff; vm_compute; reflexivity|]. split; [vm_compute; reflexivity|]. split; [repeat constructor; lia|]. split; vm_compute; reflexivity. Qed.
Print Assumptions C109_outside_refuted.
(** A font without metrics is not refused *)
Theorem C109_required_refuted : exists f out, bytes_ok f /\ table f (bs "hmtx") = [] /\ build_font f [] = Ok out /\ table out (bs "hmtx") = [] /\ hcount out = 1.
Proof. exists font_none, (built font_none []). split; [apply bytes_okb_iff; vm_compute; reflexivity|]. split; [vm_compute; reflexivity|]. split; [vm_compute; reflexivity|]. split; vm_compute; reflexivity. Qed.
Print Assumptions C109_required_refuted.
