(** Theorems on created fonts and on the widths of simple fonts. *)
From Coq Require Import Lia Permutation String.
From Verif Require Import Base TokModel ObjSpec CodeModel CodeSpec CodeProofs CodePropLemmas CodeProps CidModel CidSpec CidProofs CidProps FontModel FontSpec FontProofs FontPropLemmas ChainProofs.
Local Open Scope Z_scope.

(** ** C95 *)
(** The glyphs used are the ones asked for; the n-th one to be asked for has the CID n, and its code is the one of the encoding *)
Theorem C95_numbers enc f h : history enc f h -> countable f ->
  forall g id u, In (g, (id, u)) (f_gids f) <-> exists cps, In (id, (g, cps)) (number_from 1 (firsts h)) /\ code_of_glyph enc id cps u.
Proof. intros H C. exact (proj1 (proj2 (proj2 (finv_history enc f h H C)))). Qed.
Print Assumptions C95_numbers.
(** What is asked for again gets the same answer, and an answer stays true whatever is asked for later *)
Theorem C95_answers enc f h gid cps f1 c f2 h2 : history enc f h -> add_gid enc f gid cps = Ok (f1, c) -> grows enc f1 f2 h2 -> countable f2 ->
  In (gid, c) (f_gids f2) /\ forall cps', add_gid enc f2 gid cps' = Ok (f2, c).
Proof.
  intros H A G C. assert (C1 : countable f1) by (unfold countable in *; pose proof (grows_mono _ _ _ _ G); lia). pose proof (finv_history _ _ _ (G_add _ _ _ _ _ _ _ _ H A) C1) as F1.
  assert (C0 : countable f) by (unfold countable in *; pose proof (add_mono _ _ _ _ _ _ A); lia). destruct (finv_add _ _ _ _ _ _ _ (finv_history _ _ _ H C0) C1 A) as (_ & I1 & _).
  destruct (finv_grows _ _ _ _ _ G F1 C) as [F2 I2]. split; [exact (I2 _ I1)|]. intros cps'. unfold add_gid. destruct F2 as (K & _). rewrite (proj2 (find_gid_in _ _ _ K) (I2 _ I1)). reflexivity.
Qed.
Print Assumptions C95_answers.
(** The map from CIDs to glyphs is the list of the glyphs in the order of the first requests, numbered from 1; the embedded program has the glyphs in this order *)
Theorem C95_map enc f h : history enc f h -> countable f ->
  subset_map (f_gids f) = number_from 1 (map fst (firsts h)) /\ program_gids (f_gids f) = map fst (firsts h) /\ NoDup (map fst (firsts h)) /\ forall g, In g (map fst (firsts h)) <-> In g (map fst h).
Proof.
  intros H C. pose proof (subset_map_ok _ _ _ (finv_history _ _ _ H C)) as E.
  assert (N : forall (o : list (Z * list Z)) n, map (fun q => (fst q, fst (snd q))) (number_from n o) = number_from n (map fst o)) by (induction o as [|x o IH]; intros n; cbn [number_from map fst snd]; [reflexivity|rewrite IH; reflexivity]).
  rewrite N in E. split; [exact E|]. split; [unfold program_gids; rewrite E; apply number_snd|]. split; [apply firsts_nodup|apply firsts_same].
Qed.
Print Assumptions C95_map.
(** The set of CIDs has the bits 1 to n, where n is the number of glyphs *)
Theorem C95_set enc f h c : history enc f h -> countable f -> 0 <= c -> has_bit (cid_set (subset_cids (f_gids f))) c = true <-> 1 <= c <= Z.of_nat (length (firsts h)).
Proof.
  intros H C P. pose proof (finv_history _ _ _ H C) as FI. pose proof (C95_map _ _ _ H C) as (E & _).
  assert (IN : forall id, In id (subset_cids (f_gids f)) <-> exists g, In (id, g) (subset_map (f_gids f))).
  { intros id. unfold subset_cids. destruct (subset_map_in (f_gids f) [] ltac:(constructor)) as [_ S2]. pose proof (S2 (finv_ids _ _ _ FI)) as S3. unfold subset_map. rewrite List.in_map_iff. split.
    - intros ([g [i u]] & Q & X). cbn in Q. subst i. exists g. apply S3. right. exists u. exact X.
    - intros (g & X). apply S3 in X. destruct X as [[]|(u & X)]. exists (g, (id, u)). auto. }
  rewrite cid_set_ok; [|apply Forall_forall; intros x X; apply IN in X; destruct X as (g & X); rewrite E in X; destruct (number_range _ _ _ _ _ X); lia|exact P].
  rewrite IN, E. split.
  - intros (g & X). destruct (number_range _ _ _ _ _ X) as [X1 _]. rewrite map_length in X1. lia.
  - intros R. assert (G : forall (l : list Z) n, n <= c < n + Z.of_nat (length l) -> exists g, In (c, g) (number_from n l)).
    { induction l as [|x l IH]; intros n B; cbn [length number_from] in *; [lia|]. destruct (Z.eq_dec n c) as [->|NE]; [exists x; left; reflexivity|]. destruct (IH (n + 1)) as (g & X); [lia|]. exists g. right. exact X. }
    apply G. rewrite map_length. lia.
Qed.
Print Assumptions C95_set.
(** The widths that are written for a subset are read back for every glyph that was asked for *)
Theorem C95_widths enc f h find wd dw id g : history enc f h -> Z.of_nat (length (f_gids f)) < 2 ^ 32 - 2 -> (forall g, 0 <= wd g < 2 ^ 32) -> In (id, g) (subset_map (f_gids f)) ->
  exists x, (let (w, d) := create_widths (subset_map (f_gids f)) wd dw in load_font find w d) = Ok x /\ glyph_width x id = ONum (wd g).
Proof.
  intros H B W I. assert (C : countable f) by (unfold countable; lia). pose proof (C95_map _ _ _ H C) as (E & _). pose proof (finv_history _ _ _ H C) as (_ & L & _).
  apply C94_round_trip; auto.
  - rewrite E. apply number_fst_nodup.
  - apply Forall_forall. intros [i x] X. rewrite E in X. destruct (number_range _ _ _ _ _ X) as [X1 _]. rewrite map_length in X1. cbn [fst]. lia.
Qed.
Print Assumptions C95_widths.
(** In a dynamic encoding no request for a text that is not empty fails *)
Theorem C95_total f h gid cps : history None f h -> Z.of_nat (length (f_gids f)) < 4294967295 -> cps <> [] -> exists f' c, add_gid None f gid cps = Ok (f', c).
Proof. exact (add_total f h gid cps). Qed.
Print Assumptions C95_total.
(** In another encoding a request for a new glyph fails if the text has no code *)
Theorem C95_no_code look f h gid cps : history (Some look) f h -> countable f -> ~ In gid (map fst h) -> look cps = None -> add_gid (Some look) f gid cps = Err EInvalidFontFile.
Proof.
  intros H C N L. unfold add_gid. destruct (find_gid (f_gids f) gid) as [c|] eqn:F.
  - exfalso. apply N. apply (in_gids _ _ _ _ (finv_history _ _ _ H C)). destruct (in_dec Z.eq_dec gid (map fst (f_gids f))) as [Y|Y]; [exact Y|]. apply find_gid_none in Y. congruence.
  - unfold try_add. rewrite L. reflexivity.
Qed.
Print Assumptions C95_no_code.
Definition ask_all (enc : option (list Z -> option code)) (h : list (Z * list Z)) : res font := fold_left (fun r q => do f <- r; do x <- add_gid enc f (fst q) (snd q); Ok (fst x)) h (Ok new_font).
Lemma ask_history enc : forall h f, ask_all enc h = Ok f -> history enc f h.
Proof.
  induction h as [|[g cps] h IH] using rev_ind; unfold ask_all in *; intros f E; [injection E as <-; constructor|]. rewrite fold_left_app in E. cbn [fold_left fst snd] in E.
  destruct (fold_left _ h (Ok new_font)) as [f1| | |]; cbn [bind] in E; try discriminate. apply bind_ok in E. destruct E as ([f2 c] & A & E). cbn [fst] in E. apply ok_inj in E. subst f2.
  exact (G_add _ _ _ _ _ _ _ _ (IH f1 eq_refl) A).
Qed.
(** Glyphs 40, 7, 40 and 12: the CIDs 1, 2 and 3 *)
Example C95_numbers_case : exists f, ask_all None [(40, [65]); (7, [66]); (40, [67]); (12, [68])] = Ok f /\ map fst (f_gids f) = [7; 12; 40] /\ subset_map (f_gids f) = [(1, 40); (2, 7); (3, 12)] /\ cid_set (subset_cids (f_gids f)) = [112].
Proof. eexists. split; [vm_compute; reflexivity|]. split; [reflexivity|]. split; reflexivity. Qed.

(** ** C96 *)
(** A text that is written in a dynamic encoding is read again, also after other texts were written, and its CIDs are those of its glyphs.
    Partial: up to 255 glyphs, and if no two characters of the texts share a glyph; see below *)
Theorem C96_text_partial gid_of f h t0 text f1 out f2 h2 t2 : history None f h -> asks gid_of h t0 -> write_text None gid_of f text = Ok (f1, Some out) -> grows None f1 f2 h2 -> asks gid_of h2 t2 ->
  told_apart gid_of (t0 ++ text ++ t2) -> Z.of_nat (length (f_gids f2)) <= 255 -> Forall (fun cp => kept cp = true) text ->
  read_text f2 out = Ok (text, true) /\ exists ids, read_cids f2 out = Ok (ids, true) /\ Forall2 (fun cp id => exists g, gid_of cp = Some g /\ In (id, g) (subset_map (f_gids f2))) text ids.
Proof. exact (text_back gid_of f h t0 text f1 out f2 h2 t2). Qed.
Print Assumptions C96_text_partial.
(** A new font has at most the glyph of the space, and was asked for nothing else *)
Theorem C96_first enc gid_of f : first_font enc gid_of = Ok f -> exists h, history enc f h /\ (h = [] \/ exists g, gid_of 32 = Some g /\ h = [(g, [32])]).
Proof.
  unfold first_font. destruct (gid_of 32) as [g|] eqn:G; [|intros E; apply ok_inj in E; subst f; exists []; split; [constructor|auto]].
  intros E. apply bind_ok in E. destruct E as ([f1 r] & A & E). cbn [fst] in E. apply ok_inj in E. subst f1. destruct r as [c|].
  - exists [(g, [32])]. split; [|right; eauto]. refine (G_add enc new_font new_font [] g [32] f c (G_same _ _) _). unfold add_gid. cbn [new_font f_gids find_gid]. rewrite A. reflexivity.
  - exists []. split; [|auto]. unfold try_add in A. destruct enc as [look|].
    + destruct (look [32]); [discriminate|]. apply ok_inj in A. injection A as <-. constructor.
    + vm_compute in A. discriminate.
Qed.
Print Assumptions C96_first.
(** A text is written if and only if all its characters have glyphs, as long as there are numbers *)
Theorem C96_written gid_of f h text : history None f h -> Z.of_nat (length (f_gids f)) + Z.of_nat (length text) < 4294967295 ->
  (exists f1 out, write_text None gid_of f text = Ok (f1, Some out)) <-> forall cp, In cp text -> gid_of cp <> None.
Proof.
  intros H B. unfold write_text. split.
  - intros (f1 & out & E) cp X N. destruct (gids_of gid_of text) as [gs|] eqn:G; [|discriminate]. pose proof (gids_of_ok _ _ _ G) as F. clear -F X N. induction F as [|q c gs t [A _] F IH]; [destruct X|]. destruct X as [->|X]; [congruence|exact (IH X)].
  - intros A. assert (G : exists gs, gids_of gid_of text = Some gs /\ length gs = length text).
    { clear B H. induction text as [|cp text IH]; [exists []; auto|]. destruct IH as (gs & E & L); [intros c X; apply A; right; exact X|]. cbn [gids_of]. destruct (gid_of cp) as [g|] eqn:G; [|destruct (A cp (or_introl eq_refl) G)].
      rewrite E. eexists. split; [reflexivity|]. cbn. lia. }
    destruct G as (gs & -> & L). rewrite <- L in B. assert (P : forall acc, exists f1 out, put_text None f gs acc = Ok (f1, out)).
    { clear A L. revert f h H B. induction gs as [|[g cp] gs IH]; intros f h H B acc; cbn [put_text]; [eauto|]. cbn [length] in B. destruct (add_total f h g [cp] H ltac:(lia) ltac:(discriminate)) as (f' & c & E). rewrite E. cbn [bind fst snd].
      pose proof (G_add _ _ _ _ _ _ _ _ H E) as H'.
      assert (LB : (length (f_gids f') <= S (length (f_gids f)))%nat). { destruct (find_gid (f_gids f) g) eqn:F; [|rewrite (add_grows _ _ _ _ _ _ E F); lia]. unfold add_gid in E. rewrite F in E. apply ok_inj in E. injection E as <- _. lia. }
      assert (C' : countable f') by (unfold countable; lia). pose proof (finv_history _ _ _ H' C') as F'. assert (C0 : countable f) by (unfold countable; lia).
      destruct (finv_add _ _ _ _ _ _ _ (finv_history _ _ _ H C0) C' E) as (_ & I1 & _). destruct c as [id u]. pose proof F' as (_ & L' & IF & _). apply IF in I1. destruct I1 as (cps & X & CG). destruct (number_range _ _ _ _ _ X) as [X1 _].
      assert (U : u = tight id) by (apply (least_unique id); [exact CG|apply tight_least; lia]). subst u. cbn [snd]. unfold append_code. rewrite (proj2 (Z.ltb_ge 4 _)) by (apply tight_size; unfold countable in C'; lia).
      cbn [bind]. apply (IH f' (h ++ [(g, [cp])]) H'). lia. }
    destruct (P []) as (f1 & out & E). rewrite E. cbn [bind fst snd]. eauto.
Qed.
Print Assumptions C96_written.
(** In every font of 256 glyphs or more the 256th glyph has the code 01 00, which is read as the first glyph and a byte too many *)
Theorem C96_many_refuted f h g cps : history None f h -> countable f -> In (256, (g, cps)) (number_from 1 (firsts h)) ->
  exists g1 cps1 u, In (1, (g1, cps1)) (number_from 1 (firsts h)) /\ In (g, (256, u)) (f_gids f) /\ code_bytes u = [1; 0] /\ read_text f [1; 0] = Ok (filter kept cps1, false) /\ read_cids f [1; 0] = Ok ([1; 0], false).
Proof. exact (many f h g cps). Qed.
Print Assumptions C96_many_refuted.
(** Two characters that share a glyph, as the spaces 32 and 160 often do: the second is read as the first *)
Theorem C96_shared_refuted : exists gid_of f out, write_text None gid_of new_font [32; 160] = Ok (f, Some out) /\ read_text f out = Ok ([32; 32], true).
Proof. exists (fun _ => Some 3). eexists. eexists. split; [vm_compute; reflexivity|]. vm_compute. reflexivity. Qed.
Print Assumptions C96_shared_refuted.
(** A font with a dynamic encoding that is embedded as a whole: the first code is 0, whose size is undefined *)
Theorem C96_embedded_refuted sh gid cps : add_code sh new_font gid cps = UB.
Proof. unfold add_code, code_of_text. cbn [new_font f_text revise new_map m_dirty m_head m_map]. destruct cps as [|a [|b cps]]; reflexivity. Qed.
Print Assumptions C96_embedded_refuted.
(** Strings of any bytes are turned into CIDs if every code of the map stands for one number *)
Theorem C96_cids_total_partial cmap look l bytes : (forall c p, look c = Some p -> length p = 1%nat) -> exists r, cids_of (length bytes) cmap look l bytes = Ok r.
Proof. intros L. exact (cids_total cmap look l L (length bytes) bytes (le_n _)). Qed.
Print Assumptions C96_cids_total_partial.
(** Otherwise, as in maps from files, the end of the string is passed *)
Theorem C96_cids_refuted : exists m ps bytes, reach m ps /\ cids_of (length bytes) true (code_points m) (m_limits m) bytes = UB.
Proof. eexists. exists [(mk_code 65 1, [102; 105])], [65]. split; [apply pushes_reach; reflexivity|]. vm_compute. reflexivity. Qed.
Print Assumptions C96_cids_refuted.
Definition plain_gids (cp : Z) : option Z := if (32 <=? cp) && (cp <? 1000) then Some (cp + 100) else None.
Example C96_text_case : exists f out f1 f2 out2, write_text None plain_gids new_font [72; 101; 108; 108; 111] = Ok (f, Some out) /\ out = [1; 2; 3; 3; 4] /\ write_text None plain_gids f [9] = Ok (f1, None) /\
  write_text None plain_gids f [111; 233] = Ok (f2, Some out2) /\ read_text f2 out = Ok ([72; 101; 108; 108; 111], true) /\ read_text f2 out2 = Ok ([111; 233], true) /\ read_cids f2 out2 = Ok ([4; 5], true).
Proof.
  eexists. eexists. eexists. eexists. eexists. split; [vm_compute; reflexivity|]. split; [reflexivity|]. split; [vm_compute; reflexivity|]. split; [vm_compute; reflexivity|].
  split; [vm_compute; reflexivity|]. split; [vm_compute; reflexivity|]. vm_compute. reflexivity.
Qed.
(** 256 characters *)
Example C96_many_case : match write_text None plain_gids new_font (map (fun n => Z.of_nat n + 300) (seq 0 256)) with
                        | Ok (f, Some out) => skipn 254 out = [255; 1; 0] /\ read_text f (skipn 254 out) = Ok ([554; 300], false)
                        | _ => False end.
Proof. vm_compute. split; reflexivity. Qed.

(** ** C97 *)
(** The length of a text in a loaded font is the sum over its characters, with the glyph of each as far as it is known *)
Theorem C97_loaded size spacing scale wd code_of cid_of to_gid text :
  text_length size spacing scale wd (fst (loaded_gids code_of cid_of to_gid text)) =
  sum (map (fun cp => (wd (match code_of cp with None => cp | Some c => match cid_of c with None => c_num c | Some i => match to_gid i with None => i | Some g => g end end end) * size + spacing) * scale) text).
Proof. unfold text_length. rewrite total_sum. unfold loaded_gids. cbn [fst]. rewrite !map_map. reflexivity. Qed.
Print Assumptions C97_loaded.
(** In a created font it is 0, whatever the text *)
Theorem C97_created_refuted size spacing scale wd gid_of text : text_length size spacing scale wd (fst (created_gids gid_of text)) = 0.
Proof. destruct text; reflexivity. Qed.
Print Assumptions C97_created_refuted.
(** The length of an encoded string in a subset is that of the glyphs whose numbers are the CIDs *)
Theorem C97_string size spacing scale wd f bytes ids ok : read_cids f bytes = Ok (ids, ok) -> string_length size spacing scale wd f bytes = Ok (sum (map (fun id => (wd id * size + spacing) * scale) ids)).
Proof. intros E. unfold string_length. rewrite E. cbn [bind fst]. rewrite total_sum, map_map. reflexivity. Qed.
Print Assumptions C97_string.
(** and not that of the glyphs of the text *)
Theorem C97_string_refuted : exists gid_of wd f out, write_text None gid_of new_font [87; 105] = Ok (f, Some out) /\ string_length 12 0 1 wd f out = Ok 0 /\ sum (map (fun g => wd g * 12) (map snd (subset_map (f_gids f)))) = 15600.
Proof. exists plain_gids, (fun g => if g =? 187 then 1000 else if g =? 205 then 300 else 0). eexists. eexists. split; [vm_compute; reflexivity|]. split; [vm_compute; reflexivity|]. vm_compute. reflexivity. Qed.
Print Assumptions C97_string_refuted.
Example C97_case : text_length 10 1 2 (fun g => g) (fst (loaded_gids (fun cp => Some (mk_code cp 1)) (fun c => Some (c_num c)) (fun c => Some (c - 32)) [33; 34])) = 64.
Proof. reflexivity. Qed.

(** ** C98 *)
(** The widths of a simple font are read back, and codes outside get the missing width. [zero] is what the size of the code 0 comes to. Partial: two codes or more *)
Theorem C98_round_trip_partial zero base wd missing first last code : 0 <= first < last -> last < 4294967296 -> (first = 0 -> zero <= size_of zero last) -> 0 <= code < 4294967296 ->
  loaded_width (parsed_limits zero first last) base (simple_widths wd first last) missing code = Ok (if (first <=? code) && (code <=? last) then wd code else missing).
Proof. exact (simple_back zero base wd missing first last code). Qed.
Print Assumptions C98_round_trip_partial.
(** A font of one code, written as it should be, loses its width, if the encoding has a smaller code *)
Theorem C98_single_refuted zero base w missing code : 0 <= c_num (l_first base) -> c_num (l_first base) <= c_num (l_last base) -> c_num (l_first base) < code < 4294967296 ->
  loaded_width (parsed_limits zero code code) base (simple_widths (fun _ => w) code code) missing code = Ok missing.
Proof. intros A B C. unfold simple_widths. replace (code - code + 1) with 1 by lia. exact (single_lost zero base w missing code A B C). Qed.
Print Assumptions C98_single_refuted.
(** The widths depend on the code 0 having a size of 1 at most *)
Theorem C98_zero_refuted zero base wd missing : 1 < zero -> c_num (l_first base) = 32 -> c_num (l_last base) = 255 -> loaded_width (parsed_limits zero 0 255) base (simple_widths wd 0 255) missing 65 = Ok (wd 33).
Proof.
  intros Z F L. unfold loaded_width, first_char, parsed_limits. cbn [Z.ltb Z.compare]. unfold limits_valid. cbn [l_min l_max l_first l_last c_num]. change (size_of zero 0) with zero. change (size_of zero 255) with 1.
  rewrite (proj2 (Z.leb_gt zero 1)) by lia. rewrite andb_false_r, F, L. cbn [Z.ltb Z.compare bind Pos.compare Pos.compare_cont]. vm_compute. reflexivity.
Qed.
Print Assumptions C98_zero_refuted.
Example C98_case : loaded_width (parsed_limits 1 65 67) (mk_limits 1 1 (mk_code 0 1) (mk_code 255 1)) (simple_widths (fun c => c * 10) 65 67) 7 66 = Ok 660 /\
  loaded_width (parsed_limits 1 65 67) (mk_limits 1 1 (mk_code 0 1) (mk_code 255 1)) (simple_widths (fun c => c * 10) 65 67) 7 64 = Ok 7.
Proof. split; reflexivity. Qed.
