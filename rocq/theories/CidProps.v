(** Theorems on CID fonts. *)
From Coq Require Import Lia String.
From Verif Require Import Base TokModel ObjSpec TextModel TextSpec ChainProofs CodeModel CodeSpec CodePropLemmas CMapModel CMapSpec CMapWriteProofs CMapProps CidModel CidSpec CidProofs.
Local Open Scope Z_scope.

(** ** C48 *)
(** A stream whose bytes are below 128 is read as it is meant. Partial: not for other bytes, see below *)
Theorem C48_load_partial bytes cid gid : Forall (fun b => 0 <= b < 128) bytes -> stored bytes cid gid -> find_cid (load_map 0 bytes) cid = Some gid.
Proof.
  intros F (be & a & b & af & E & L & G). subst gid. rewrite (load_map_at bytes 0 cid be a b af E) by lia. subst bytes. apply Forall_app in F. destruct F as [_ F].
  rewrite glyph_small; [reflexivity|inversion F; assumption|]. apply Forall_inv_tail in F. inversion F; assumption.
Qed.
Print Assumptions C48_load_partial.
(** What is not in the stream has no glyph *)
Theorem C48_load_none bytes cid : 0 <= cid -> (forall gid, ~ stored bytes cid gid) -> find_cid (load_map 0 bytes) cid = None.
Proof.
  intros P N. apply load_map_none; [exact P|]. destruct (Z.lt_ge_cases (Z.of_nat (length bytes)) (2 * (cid - 0) + 2)) as [L|L]; [exact L|]. exfalso.
  assert (S1 : exists be a b af, bytes = be ++ a :: b :: af /\ Z.of_nat (length be) = 2 * cid).
  { exists (firstn (Z.to_nat (2 * cid)) bytes). assert (LS : (2 <= length (skipn (Z.to_nat (2 * cid)) bytes))%nat) by (rewrite skipn_length; lia).
    destruct (skipn (Z.to_nat (2 * cid)) bytes) as [|a [|b af]] eqn:E; cbn [length] in LS; try lia. exists a, b, af. rewrite <- E, firstn_skipn. split; [reflexivity|]. rewrite firstn_length_le by lia. lia. }
  destruct S1 as (be & a & b & af & E & LB). apply (N (256 * a + b)). exists be, a, b, af. auto.
Qed.
Print Assumptions C48_load_none.
(** A second byte of 128 or more gives a glyph above 2^32 - 129, whatever the first byte *)
Theorem C48_sign_refuted bytes cid be a b af : bytes = be ++ a :: b :: af -> Z.of_nat (length be) = 2 * cid -> 0 <= a < 256 -> 128 <= b < 256 ->
  stored bytes cid (256 * a + b) /\ find_cid (load_map 0 bytes) cid = Some (2 ^ 32 - 256 + b).
Proof. intros E L A B. split; [exists be, a, b, af; auto|]. rewrite (load_map_at bytes 0 cid be a b af E) by lia. rewrite glyph_low by assumption. reflexivity. Qed.
Print Assumptions C48_sign_refuted.
(** Where the glyphs are written: the k-th one is k places too far *)
Theorem C48_places m k cid gid : sorted_from (-1) m -> nth_error m k = Some (cid, gid) -> 0 <= gid < 65536 -> stored (export_map 0 m) (cid + Z.of_nat k) gid.
Proof.
  intros SF N G. destruct (export_place m 0 k cid gid SF N) as (be & af & E & L). exists be, (gid / 256 mod 256), (gid mod 256), af. split; [exact E|]. split; [lia|].
  pose proof (Z.div_mod gid 256). rewrite (Z.mod_small (gid / 256)); [lia|]. split; [apply Z.div_pos; lia|apply Z.div_lt_upper_bound; lia].
Qed.
Print Assumptions C48_places.
(** So a map with one entry is kept, if its bytes are below 128. Partial: not for other maps, see below *)
Theorem C48_one_partial cid gid : 0 <= cid -> 0 <= gid < 65536 -> gid / 256 < 128 -> gid mod 256 < 128 ->
  find_cid (load_map 0 (export_map 0 [(cid, gid)])) cid = Some gid /\ forall c, 0 <= c -> glyph_at (load_map 0 (export_map 0 [(cid, gid)])) c = glyph_at [(cid, gid)] c.
Proof.
  intros P G H1 H2. assert (GP : 0 <= gid / 256) by (apply Z.div_pos; lia). pose proof (Z.mod_pos_bound gid 256). pose proof (Z.div_mod gid 256).
  assert (ST : find_cid (load_map 0 (export_map 0 [(cid, gid)])) cid = Some gid).
  { cbn [export_map]. rewrite (load_map_at _ 0 cid (zeros (Z.to_nat (cid - 0))) (gid / 256 mod 256) (gid mod 256) []); [|reflexivity|rewrite zeros_length; lia]. rewrite (Z.mod_small (gid / 256)) by lia. rewrite glyph_small by lia. f_equal. lia. }
  split; [exact ST|]. intros c PC. unfold glyph_at at 2. cbn [find_cid]. destruct (Z.eqb_spec cid c) as [<-|N]; [unfold glyph_at; rewrite ST; reflexivity|]. unfold glyph_at. destruct (Z.lt_ge_cases c cid) as [L|L].
  - cbn [export_map]. rewrite (zeros_split (Z.to_nat (cid - 0)) (Z.to_nat c)) by lia. rewrite (load_map_at _ 0 c (zeros (Z.to_nat c)) 0 0 (zeros (Z.to_nat (cid - 0) - Z.to_nat c - 1) ++ [gid / 256 mod 256; gid mod 256])); [reflexivity|rewrite <- app_assoc; reflexivity|rewrite zeros_length; lia].
  - cbn [export_map]. rewrite load_map_none; [reflexivity|lia|]. rewrite !app_length, zeros_length. cbn [length]. lia.
Qed.
Print Assumptions C48_one_partial.
(** In every map with two entries or more the second one is lost *)
Theorem C48_second_refuted c1 g1 c2 g2 m : sorted_from (-1) ((c1, g1) :: (c2, g2) :: m) -> find_cid (load_map 0 (export_map 0 ((c1, g1) :: (c2, g2) :: m))) c2 = Some 0.
Proof. intros (P & L & _). apply second_lost; lia. Qed.
Print Assumptions C48_second_refuted.
Example C48_case : export_map 0 [(1, 5); (2, 6); (4, 300)] = [0; 0; 0; 5; 0; 0; 0; 6; 0; 0; 0; 0; 1; 44] /\ load_map 0 [0; 0; 0; 5; 0; 0; 0; 6; 0; 0; 0; 0; 1; 44] = [(0, 0); (1, 5); (2, 0); (3, 6); (4, 0); (5, 0); (6, 300)] /\
  load_map 0 [0; 200; 200; 7; 1] = [(0, 4294967240); (1, 4294952967)].
Proof. repeat split. Qed.

(** ** C49 *)
(** The code points below 256^n have a code, with n bytes. Partial: not the code point 0 and not for n = 4, see below *)
Theorem C49_code_partial n l cp : identity_limits n = Ok l -> 1 <= cp -> identity_code l cp = Ok (if cp <? 256 ^ n then Some (mk_code cp n) else None).
Proof. exact (identity_code_ok n l cp). Qed.
Print Assumptions C49_code_partial.
(** A text is written as the n bytes of each code point, the most significant first, and read back *)
Theorem C49_round_partial n text : 1 <= n <= 3 -> Forall (fun cp => 1 <= cp < 256 ^ n /\ kept cp = true) text ->
  exists l out, identity_limits n = Ok l /\ identity_encode l text [] = Ok (Some out) /\ decode (length out) identity_points l out = Ok (text, true) /\
  exists chunks, out = concat chunks /\ Forall2 (fun ch cp => is_bytes ch /\ Z.of_nat (length ch) = n /\ number_of ch = cp) chunks text.
Proof.
  intros N F. pose proof (identity_limits_ok n N) as EL. set (l := mk_limits n n (mk_code 0 n) (mk_code (256 ^ n) n)) in *.
  assert (F1 : Forall (fun cp => 1 <= cp < 256 ^ n) text) by (eapply Forall_impl; [|exact F]; intros cp [H _]; exact H). eexists. eexists. split; [exact EL|]. split; [apply (identity_encode_ok n l N EL text [] F1)|]. rewrite app_nil_l. split.
  - rewrite (decode_chunks identity_points l n ltac:(lia) eq_refl eq_refl).
    + f_equal. f_equal. rewrite map_map. cbn [snd]. replace (concat (map (fun cp : Z => [cp]) text)) with text by (clear; induction text as [|x t IH]; [reflexivity|]; cbn; congruence). apply filter_id. eapply Forall_impl; [|exact F]. intros cp [_ K]. exact K.
    + apply Forall_forall. intros x I. apply List.in_map_iff in I. destruct I as (cp & <- & I). cbn [fst snd c_size c_num]. rewrite Forall_forall in F1. pose proof (F1 cp I). repeat split; try lia; reflexivity.
    + apply Nat.le_refl.
  - eexists. split; [reflexivity|]. clear - F1 N. induction F1 as [|cp text H F IH]; cbn [map]; constructor; [|exact IH]. unfold code_bytes. cbn [fst c_num c_size]. destruct (append_bytes_ok cp (Z.to_nat n) ltac:(lia)) as (B & L & V). split; [exact B|]. split; [rewrite L; lia|]. rewrite V, Z2Nat.id by lia. apply Z.mod_small. lia.
Qed.
Print Assumptions C49_round_partial.
(** A text with a larger code point is not written *)
Theorem C49_large n l text : identity_limits n = Ok l -> Forall (fun cp => 1 <= cp) text -> identity_encode l text [] = Ok None <-> exists cp, In cp text /\ 256 ^ n <= cp.
Proof.
  intros E F. assert (M : l_max l = n /\ n < 4) by (unfold identity_limits in E; destruct (Z.eqb_spec n 0), (Z.ltb_spec 4 n), (Z.eqb_spec n 4); cbn in E; try discriminate; apply ok_inj in E; subst l; cbn; split; [reflexivity|lia]).
  rewrite identity_stops by (try exact F; lia). split; intros (cp & I & H); exists cp; (split; [exact I|]); rewrite Forall_forall in F; pose proof (F cp I) as P.
  - rewrite (identity_code_ok n l cp E P) in H. destruct (Z.ltb_spec cp (256 ^ n)); [discriminate|assumption].
  - rewrite (identity_code_ok n l cp E P). destruct (Z.ltb_spec cp (256 ^ n)); [lia|reflexivity].
Qed.
Print Assumptions C49_large.
(** n bytes are read as their number, also where nothing would be written *)
Theorem C49_decode n l bytes rest : 1 <= n <= 3 -> identity_limits n = Ok l -> is_bytes bytes -> Z.of_nat (length bytes) = n -> next_points identity_points l (bytes ++ rest) 0 1 = Some ([number_of bytes], rest).
Proof.
  intros N E B L. rewrite identity_limits_ok in E by exact N. apply ok_inj in E. subst l. apply (next_points_code identity_points _ n); try exact B; try reflexivity; try lia. intros ->. cbn in L. lia.
Qed.
Print Assumptions C49_decode.
(** The code point 0 and encodings of four bytes are undefined; the last code is one too large for n bytes *)
Theorem C49_zero_refuted l : identity_code l 0 = UB.
Proof. reflexivity. Qed.
Theorem C49_four_refuted : identity_limits 4 = UB.
Proof. reflexivity. Qed.
Theorem C49_last_refuted n l : identity_limits n = Ok l -> 0 <= n -> c_num (l_last l) = 256 ^ n /\ identity_code l (c_num (l_last l)) = Ok None.
Proof.
  intros E P. assert (L : c_num (l_last l) = 256 ^ n).
  { unfold identity_limits in E. destruct ((n =? 0) || (4 <? n)); [discriminate|]. destruct (n =? 4); [discriminate|]. apply ok_inj in E. subst l. cbn [l_last c_num]. rewrite Z.pow_mul_r by lia. reflexivity. }
  split; [exact L|]. rewrite L. rewrite (identity_code_ok n) by (try exact E; pose proof (Z.pow_pos_nonneg 256 n); lia). rewrite Z.ltb_irrefl. reflexivity.
Qed.
Print Assumptions C49_zero_refuted.
Print Assumptions C49_four_refuted.
Print Assumptions C49_last_refuted.
(** So the ToUnicode map which is written for Identity-H says that there are codes of three bytes *)
Theorem C49_unicode_refuted : exists l text m cl, identity_limits 2 = Ok l /\ write_identity l = Ok text /\ parse_cmap text = Ok (m, cl) /\ cl_min cl = 2 /\ cl_max cl = 3 /\ code_points m (mk_code 1048576 3) = Some [1048576].
Proof.
  set (cs := [((@nil Z, bs "0000"), (@nil Z, bs "10000"))]). set (r := mk_range ([10], bs "0000") ([32], bs "10000") (DOne ([32], bs "0000"))). set (parts := [mk_part [10] 1 [32] (BRanges [r]) [10]]).
  assert (TX : write_identity (mk_limits 2 2 (mk_code 0 2) (mk_code 65536 2)) = Ok (cmap_text cs [10] parts)) by (vm_compute; reflexivity).
  assert (SP : forall ws w, In ws [[]; [10]; [32]] -> In w [bs "0000"; bs "10000"] -> spaced_ok (ws, w)).
  { intros ws w I J. split; cbn [fst snd].
    - cbn in I. destruct I as [<-|[<-|[<-|[]]]]; repeat constructor.
    - cbn [In] in J. destruct J as [<-|[<-|[]]]; (split; [cbn; intuition discriminate|cbn; discriminate]). }
  assert (IC : forall ws w, In ws [[]; [10]; [32]] -> In w [bs "0000"; bs "10000"] -> is_code (ws, w)).
  { intros ws w I J. split; [apply SP; assumption|]. cbn [snd]. cbn [In] in J. destruct J as [<-|[<-|[]]]; vm_compute; lia. }
  assert (BC : Forall both_codes cs) by (constructor; [split; apply IC; cbn; auto|constructor]). assert (BL : blank [10]) by (repeat constructor).
  assert (TE : is_text ([32], bs "0000") [0]) by (split; [apply SP; cbn; auto|]; split; [constructor; [split; lia|constructor]|vm_compute; reflexivity]).
  assert (RM : range_means r (range_pairs (word_code ([10], bs "0000")) (word_code ([32], bs "10000")) [0])).
  { split; [split; [apply IC; cbn; auto|]; split; [apply IC; cbn; auto|]; split; vm_compute; congruence|]. exists [0]. split; [exact TE|]. split; [discriminate|]. split; [vm_compute; congruence|reflexivity]. }
  assert (W : forall b, b = [10] \/ b = [32] -> white b) by (intros b [->| ->]; (split; [repeat constructor|discriminate])).
  assert (PM : Forall2 (part_means range_means) parts [range_pairs (word_code ([10], bs "0000")) (word_code ([32], bs "10000")) [0]]).
  { constructor; [|constructor]. split; [apply W; auto|]. split; [apply W; auto|]. split; [apply W; auto|]. split; [cbn; lia|]. exists [range_pairs (word_code ([10], bs "0000")) (word_code ([32], bs "10000")) [0]]. split; [constructor; [exact RM|constructor]|]. cbn [concat]. rewrite app_nil_r. reflexivity. }
  assert (PO : Forall part_one parts).
  { constructor; [|constructor]. constructor; [|constructor]. intros p (_ & SC & H). cbn [snd] in H. assert (X : utf16be_text p = utf16be_text [0]) by (rewrite <- H; vm_compute; reflexivity). clear - X SC.
    destruct p as [|a [|b p]]; [discriminate|reflexivity|]. exfalso. apply (f_equal (@length Z)) in X. unfold utf16be_text in X. cbn [flat_map] in X. rewrite !flat_map_app, !app_length in X.
    assert (LE : forall c, (2 <= length (flat_map (fun u => [u / 256; u mod 256]%Z) (utf16_char c)))%nat) by (intros c; unfold utf16_char; destruct (c <? 65536); cbn; lia). pose proof (LE a). pose proof (LE b). cbn [utf16_char flat_map length app] in X. change (utf16_char 0) with [0] in X. cbn [flat_map length app] in X. lia. }
  destruct (C93_sizes_partial cs [10] parts _ BC BL PM PO) as (m & cl & E & BD & (x & IX & EX) & (y & IY & EY)); [discriminate|].
  destruct (C46_ranges_partial cs [10] parts _ BC BL PM PO) as (m' & cl' & E' & CP). rewrite E in E'. injection E' as <- <-.
  eexists. eexists. exists m, cl. split; [reflexivity|]. split; [exact TX|]. split; [exact E|].
  assert (TC : text_codes cs parts = [mk_code 0 2; mk_code 1048576 3; mk_code 0 2; mk_code 1048576 3]) by (vm_compute; reflexivity). rewrite TC in *.
  pose proof (BD (mk_code 0 2) ltac:(cbn; auto)). pose proof (BD (mk_code 1048576 3) ltac:(cbn; auto)). cbn [c_size] in *.
  split; [cbn in IX; destruct IX as [<-|[<-|[<-|[<-|[]]]]]; cbn [c_size] in EX; lia|]. split; [cbn in IY; destruct IY as [<-|[<-|[<-|[<-|[]]]]]; cbn [c_size] in EY; lia|].
  apply CP. exists (mk_code 1048576 2). split; [reflexivity|]. cbn [concat]. rewrite app_nil_r. clear. unfold range_pairs.
  change (c_num (word_code ([32], bs "10000"))) with 1048576. change (c_num (word_code ([10], bs "0000"))) with 0. change (c_size (word_code ([10], bs "0000"))) with 2.
  assert (UP : forall n i, upto i (S n) = upto i n ++ [i + Z.of_nat n]).
  { induction n as [|n IH]; intros i; [cbn; rewrite Z.add_0_r; reflexivity|]. change (upto i (S (S n))) with (i :: upto (i + 1) (S n)). rewrite IH. cbn [upto app]. do 3 f_equal. lia. }
  replace (Z.to_nat (1048576 - 0 + 1)) with (S (Z.to_nat 1048576)) by lia. rewrite UP, map_app. cbn [map]. rewrite Z2Nat.id by lia. eexists. exists []. split; [reflexivity|]. intros q [].
Qed.
Print Assumptions C49_unicode_refuted.
Example C49_case : exists l, identity_limits 2 = Ok l /\ identity_encode l [65; 8364] [] = Ok (Some [0; 65; 32; 172]) /\ decode 4 identity_points l [0; 65; 32; 172] = Ok ([65; 8364], true) /\ identity_encode l [65; 128512] [] = Ok None.
Proof. eexists. repeat split. Qed.

(** ** C94 *)
(** Any array /W of entries, with the arrays direct or indirect, is read as it says *)
Theorem C94_read_partial find dw d es txts : Forall2 (spelled find) es txts -> Forall entry_fits es -> match dw with Some o => is_number o /\ d = o | None => d = ONum 1000 end ->
  exists f, load_font find (Some (concat txts)) dw = Ok f /\ forall cid, 0 <= cid -> says es d cid (glyph_width f cid).
Proof. exact (load_font_ok find dw d es txts). Qed.
Print Assumptions C94_read_partial.
(** The array written for a map and the widths of its glyphs gives each CID the width of its glyph, CID 0 that of glyph 0 if it has none, and nothing else *)
Theorem C94_written m wd : m <> [] -> NoDup (map fst m) -> Forall (fun p => 0 <= fst p < 2 ^ 32 - 1) m -> (forall g, 0 <= wd g < 2 ^ 32) ->
  exists es txts, Forall2 (spelled (fun _ _ => Err ENoObject)) es txts /\ pdf_widths m wd = concat txts /\ Forall entry_fits es /\
  (forall d cid gid, In (cid, gid) m -> says es d cid (ONum (wd gid))) /\ (forall d, ~ In 0 (map fst m) -> says es d 0 (ONum (wd 0))) /\ forall d cid, cid <> 0 -> ~ In cid (map fst m) -> says es d cid d.
Proof.
  intros NE ND F W. destruct (widths_written m wd NE ND F W) as (es & E & EF & _ & V). exists es, (map entry_text es). split; [apply text_spelled|]. split; [exact E|]. split; [exact EF|].
  assert (FI : forall cid gid, In (cid, gid) m -> find_cid m cid = Some gid).
  { clear - ND. induction m as [|[k g] m IH]; intros cid gid I; [contradiction|]. cbn [map fst find_cid] in *. apply NoDup_cons_iff in ND. destruct ND as [N1 N2]. destruct I as [I|I]; [injection I as -> ->; rewrite Z.eqb_refl; reflexivity|].
    destruct (Z.eqb_spec k cid) as [->|N]; [exfalso; apply N1; apply List.in_map_iff; exists (cid, gid); auto|]. apply IH; assumption. }
  assert (FN : forall cid, ~ In cid (map fst m) -> find_cid m cid = None).
  { clear. induction m as [|[k g] m IH]; intros cid N; [reflexivity|]. cbn [map fst find_cid] in *. destruct (Z.eqb_spec k cid) as [->|K]; [exfalso; apply N; left; reflexivity|]. apply IH. intros I. apply N. right. exact I. }
  split; [|split].
  - intros d cid gid I. pose proof (value_says es d cid) as S1. rewrite V in S1. unfold expected in S1. rewrite (FI _ _ I) in S1. exact S1.
  - intros d N. pose proof (value_says es d 0) as S1. rewrite V in S1. unfold expected in S1. rewrite (FN 0 N) in S1. exact S1.
  - intros d cid NZ N. pose proof (value_says es d cid) as S1. rewrite V in S1. unfold expected in S1. rewrite (FN cid N) in S1. destruct (Z.eqb_spec cid 0); [contradiction|]. exact S1.
Qed.
Print Assumptions C94_written.
(** The widths are read back *)
Theorem C94_round_trip find m wd dw cid gid : NoDup (map fst m) -> Forall (fun p => 0 <= fst p < 2 ^ 32 - 1) m -> (forall g, 0 <= wd g < 2 ^ 32) -> In (cid, gid) m ->
  exists f, (let (w, o) := create_widths m wd dw in load_font find w o) = Ok f /\ glyph_width f cid = ONum (wd gid).
Proof.
  intros ND F W I. assert (NE : m <> []) by (intros ->; contradiction). destruct (round_trip find m wd dw NE ND F W) as (f & E & V). exists f. split; [exact E|]. rewrite V by (rewrite Forall_forall in F; apply (F _ I)).
  unfold expected. replace (find_cid m cid) with (Some gid); [reflexivity|]. clear - ND I. induction m as [|[k g] m IH]; [contradiction|]. cbn [map fst find_cid] in *. apply NoDup_cons_iff in ND. destruct ND as [N1 N2].
  destruct I as [I|I]; [injection I as -> ->; rewrite Z.eqb_refl; reflexivity|]. destruct (Z.eqb_spec k cid) as [->|N]; [exfalso; apply N1; apply List.in_map_iff; exists (cid, gid); auto|]. apply IH; assumption.
Qed.
Print Assumptions C94_round_trip.
(** and so is the default width, for all CIDs that are not mapped, unless there is none *)
Theorem C94_default find m wd dw cid : m <> [] -> NoDup (map fst m) -> Forall (fun p => 0 <= fst p < 2 ^ 32 - 1) m -> (forall g, 0 <= wd g < 2 ^ 32) -> 0 < cid -> ~ In cid (map fst m) ->
  exists f, (let (w, o) := create_widths m wd dw in load_font find w o) = Ok f /\ glyph_width f cid = if dw <? 0 then ONum 1000 else ONum dw.
Proof.
  intros NE ND F W P N. destruct (round_trip find m wd dw NE ND F W) as (f & E & V). exists f. split; [exact E|]. rewrite V by lia. unfold expected.
  replace (find_cid m cid) with (@None Z); [destruct (Z.eqb_spec cid 0); [lia|reflexivity]|]. clear - N. induction m as [|[k g] m IH]; [reflexivity|]. cbn [map fst find_cid] in *. destruct (Z.eqb_spec k cid) as [->|K]; [exfalso; apply N; left; reflexivity|]. apply IH. intros I. apply N. right. exact I.
Qed.
Print Assumptions C94_default.
Example C94_case : pdf_widths [(1, 5); (2, 6); (3, 7); (4, 8); (9, 8); (10, 5)] (fun g => if g <? 7 then 500 + g else 600) = [ONum 0; OArr [ONum 500; ONum 505; ONum 506]; ONum 3; ONum 4; ONum 600; ONum 9; OArr [ONum 600; ONum 505]] /\
  exists f, load_font (fun _ _ => Err ENoObject) (Some [ONum 2; OArr [ONum 7; OReal 55 1]; ONum 1; ONum 2; ONum 9]) None = Ok f /\ map (glyph_width f) [0; 1; 2; 3; 4; 70] = [ONum 1000; ONum 9; ONum 9; OReal 55 1; ONum 1000; ONum 1000].
Proof. split; [reflexivity|]. eexists. split; reflexivity. Qed.
(** A font without a default width (which counts as 0, PdfFontMetrics.cpp:167-174) gets the default of 1000 *)
Theorem C94_no_default_refuted : exists f, (let (w, o) := create_widths [(1, 5)] (fun _ => 500) (-1) in load_font (fun _ _ => Err ENoObject) w o) = Ok f /\ glyph_width f 2 = ONum 1000.
Proof. eexists. split; reflexivity. Qed.
(** CID 2^32 - 1 is written outside of the vector: with its width alone, and at the end of any range *)
Theorem C94_outside_refuted find d ws r v a w : is_number v -> 0 <= a < 2 ^ 32 -> is_number w -> (Z.of_nat (length ws) < 2 ^ 32) ->
  load_widths (S (length r)) find d (ONum (-1) :: OArr [v] :: r) ws = UB /\ load_widths (S (length r)) find d (ONum a :: ONum (-1) :: w :: r) ws = UB.
Proof.
  intros V A W L. cbn [load_widths lenient bind second_of]. change (u32 (-1)) with 4294967295. change (2 ^ 32) with 4294967296 in *. split.
  - cbn [length]. change (u32 (4294967295 + Z.of_nat 1)) with 0. cbn [put_widths]. rewrite (number_real v V). cbn [bind].
    assert (R : resize ws 0 d = ws) by (unfold resize; destruct (Z.ltb_spec (Z.of_nat (length ws)) 0); [lia|reflexivity]). rewrite R. destruct (Z.ltb_spec 4294967295 (Z.of_nat (length ws))); [lia|reflexivity].
  - change (u32 (4294967295 + 1)) with 0. rewrite (number_real w W). cbn [bind]. assert (R : resize ws 0 d = ws) by (unfold resize; destruct (Z.ltb_spec (Z.of_nat (length ws)) 0); [lia|reflexivity]). rewrite R.
    unfold fill_widths. unfold u32. rewrite (Z.mod_small a) by (change (2 ^ 32) with 4294967296; lia). destruct (Z.ltb_spec 4294967295 a); [lia|]. destruct (Z.ltb_spec 4294967295 (Z.of_nat (length ws))); [lia|reflexivity].
Qed.
Print Assumptions C94_no_default_refuted.
Print Assumptions C94_outside_refuted.
(** With a stream /CIDToGIDMap the width of a CID is looked up at the number of its glyph, though /W has the widths of the CIDs: two CIDs with one glyph have one width, whatever /W says *)
Theorem C94_glyph_refuted f m c1 c2 g : find_cid m c1 = Some g -> find_cid m c2 = Some g -> cid_width f (Some m) c1 = glyph_width f g /\ cid_width f (Some m) c2 = glyph_width f g.
Proof. intros E1 E2. unfold cid_width. rewrite E1, E2. auto. Qed.
Print Assumptions C94_glyph_refuted.
Example C94_glyph_case : exists f, load_font (fun _ _ => Err ENoObject) (Some [ONum 1; OArr [ONum 500; ONum 600]]) None = Ok f /\ cid_width f None 1 = ONum 500 /\ cid_width f (Some (load_map 0 [0; 0; 0; 2; 0; 3])) 1 = ONum 600 /\ cid_width f (Some (load_map 0 [0; 0; 0; 2; 0; 3])) 2 = ONum 1000.
Proof. eexists. repeat split. Qed.

(** ** C95 *)
(** The set of CIDs of a subset has the bits of its CIDs, and no others *)
Theorem C95_cid_set cids c : Forall (fun x => 0 <= x) cids -> 0 <= c -> has_bit (cid_set cids) c = true <-> In c cids.
Proof. exact (cid_set_ok cids c). Qed.
Print Assumptions C95_cid_set.
Example C95_set_case : cid_set [1; 2; 17] = [96; 0; 64].
Proof. reflexivity. Qed.
