(** Cross-reference streams: what is written is read back; reading stays inside whole entries *)
From Coq Require Import String.
From Verif Require Import Base ChainProofs TokModel WriteModel UtilModel UtilProofs DateModel ListModel XrefModel XrefSpec XrefProofs XrefReadProofs XrefPropLemmas.
Local Open Scope Z_scope.

Lemma mem_be32_read v k : 0 <= v < 2 ^ 32 -> read_width 4 (mem_be32 v ++ k) = Ok (v, k) /\ length (mem_be32 v) = 4%nat.
Proof.
  intros H. destruct (split32 v H) as (a & b & c & d & Ha & Hb & Hc & Hd & E).
  destruct (bytes32 a b c d Ha Hb Hc Hd) as (E0 & E1 & E2 & E3). unfold mem_be32. rewrite <- E in *. rewrite E0, E1, E2, E3.
  split; [|easy]. unfold is_byte in *.
  change (read_width 4 ([a; b; c; d] ++ k)) with (@Ok (Z * list Z) (u64 ((u64 ((u64 ((u64 (0 * 2 ^ 8) + a) * 2 ^ 8) + b) * 2 ^ 8) + c) * 2 ^ 8) + d, k)).
  unfold u64. rewrite (Z.mod_small (0 * 2 ^ 8)) by lia. rewrite (Z.mod_small ((0 * 2 ^ 8 + a) * 2 ^ 8)) by lia.
  rewrite (Z.mod_small (((0 * 2 ^ 8 + a) * 2 ^ 8 + b) * 2 ^ 8)) by lia.
  rewrite Z.mod_small by lia. f_equal. f_equal. lia.
Qed.
Lemma mem_be16_read v k : 0 <= v < 2 ^ 16 -> read_width 2 (mem_be16 v ++ k) = Ok (v, k) /\ length (mem_be16 v) = 2%nat.
Proof.
  intros H. destruct (split16 v H) as (a & b & Ha & Hb & E).
  destruct (bytes16 a b Ha Hb) as (E0 & E1). unfold mem_be16. rewrite <- E in *. rewrite E0, E1.
  split; [|easy]. unfold is_byte in *.
  change (read_width 2 ([a; b] ++ k)) with (@Ok (Z * list Z) (u64 ((u64 (0 * 2 ^ 8) + a) * 2 ^ 8) + b, k)).
  unfold u64. rewrite (Z.mod_small (0 * 2 ^ 8)) by lia. rewrite Z.mod_small by lia. f_equal. f_equal. lia.
Qed.
(** What the four and two bytes hold *)
Definition cut (e : xent) : xent := match e with XFree n g => XFree (u32 n) (u16 g) | XUsed off g => XUsed (u32 off) (u16 g) end.
Lemma raw_read e k : read_raw 1 4 2 (entry_raw e ++ k) = Ok (as_read 0 (cut e)) /\ length (entry_raw e) = 7%nat.
Proof.
  assert (B32 : forall z, 0 <= u32 z < 2 ^ 32) by (intros; apply Z.mod_pos_bound; lia).
  assert (B16 : forall z, 0 <= u16 z < 2 ^ 16) by (intros; apply Z.mod_pos_bound; lia).
  assert (K : forall t v g, t = 0 \/ t = 1 ->
    read_raw 1 4 2 ((t :: mem_be32 (u32 v) ++ mem_be16 (u16 g)) ++ k) =
    Ok (if t =? 0 then RFree (u32 v) (u16 g) else RUsed (u32 v) (u16 g)) /\
    length (t :: mem_be32 (u32 v) ++ mem_be16 (u16 g)) = 7%nat).
  { intros t v g T. destruct (mem_be32_read (u32 v) (mem_be16 (u16 g) ++ k) (B32 v)) as [A1 A2].
    destruct (mem_be16_read (u16 g) k (B16 g)) as [C1 C2]. split; [|cbn [length]; rewrite app_length, A2, C2; easy].
    unfold read_raw. cbn [app]. rewrite <- app_assoc.
    replace (read_width 1 (t :: mem_be32 (u32 v) ++ mem_be16 (u16 g) ++ k)) with (@Ok (Z * list Z) (t, mem_be32 (u32 v) ++ mem_be16 (u16 g) ++ k)) by (destruct T as [-> | ->]; easy).
    cbn [bind snd fst]. rewrite A1. cbn [bind snd fst]. rewrite C1. cbn [bind snd fst].
    rewrite (u32_small (u16 g)) by (pose proof (B16 g); lia).
    destruct T as [-> | ->]; easy. }
  destruct e as [n g | off g]; cbn [entry_raw cut as_read].
  - apply (K 0 n g). left; easy.
  - rewrite Z.add_0_r. apply (K 1 off g). right; easy.
Qed.

Lemma read_raws_text l : forall i k es, 0 <= i -> i + Z.of_nat (length l) <= Z.of_nat (length es) ->
  i + Z.of_nat (length l) < 2 ^ 32 ->
  read_raws (length l) i 1 4 2 (flat_map (fun e : Z * xent => entry_raw (snd e)) l ++ k) es
  = Ok (k, fill 0 i (map (fun x => cut (snd x)) l) es).
Proof.
  induction l as [|[z e] l IH]; intros i k es P L B; [easy|].
  cbn [length] in L, B. rewrite Nat2Z.inj_succ in L, B.
  cbn [length read_raws flat_map map fill snd]. rewrite <- app_assoc. set (K := flat_map _ l ++ k).
  destruct (raw_read e K) as [R1 R2].
  assert (D : skipn (Z.to_nat (1 + 4 + 2)) (entry_raw e ++ K) = K).
  { change (Z.to_nat (1 + 4 + 2)) with 7%nat. rewrite <- R2 at 1. rewrite skipn_app, Nat.sub_diag, skipn_all. easy. }
  destruct (entry_raw e ++ K) as [|b0 [|b1 t]] eqn:EM.
  1,2: exfalso; apply (f_equal (@length Z)) in EM; rewrite app_length, R2 in EM; cbn in EM; lia.
  rewrite u32_small by lia.
  destruct (nth_error es (Z.to_nat i)) as [[x|]|] eqn:E.
  - cbn [bind]. rewrite D. unfold K. apply IH; lia.
  - rewrite R1. cbn [bind]. rewrite D. unfold K. apply IH; try lia. rewrite set_nth_len. lia.
  - apply nth_error_None in E. lia.
Qed.
(** The subsections with their entries cut *)
Definition cut_sec (s : section) : section := (fst s, map (fun x => (fst x, cut (snd x))) (snd s)).
Lemma read_pairs_text secs : forall lo es k, 0 <= lo -> well_formed lo secs ->
  Forall (fun s : section => fst (fst s) + snd (fst s) <= 8388607) secs ->
  read_pairs (stream_index secs) 1 4 2 (flat_map (fun x => entry_raw (snd x)) (flat_map (fun x : section => snd x) secs) ++ k) es
  = Ok (fill_secs 0 (map cut_sec secs) es).
Proof.
  induction secs as [|[[f c] l] secs IH]; intros lo es k P W LM; [easy|].
  inversion LM as [|? ? L1 L2]; subst. cbn [fst snd] in L1. destruct W as (W1 & W2 & W3 & W4).
  cbn [stream_index flat_map fst snd app read_pairs map cut_sec fill_secs].
  replace (int64_ok (f + c)) with true.
  2:{ symmetry. unfold int64_ok. destruct (Z.leb_spec (- 2 ^ 63) (f + c)), (Z.ltb_spec (f + c) (2 ^ 63)); easy || lia. }
  cbn [negb]. unfold enlarge. destruct (Z.ltb_spec (f + c) 0); [lia|]. destruct (Z.ltb_spec 8388607 (f + c)); [lia|].
  cbn [bind]. fold (grown (f + c) es). rewrite flat_map_app, <- app_assoc.
  rewrite (u32_small c) by lia. rewrite (u32_small f) by lia. replace (Z.to_nat c) with (length l) by lia.
  pose proof (grown_len (f + c) es ltac:(lia)).
  rewrite read_raws_text by lia. cbn [bind fst snd]. rewrite map_map. cbn [snd].
  apply (IH (f + c)); easy || lia.
Qed.
Lemma index_even secs : Nat.odd (length (stream_index secs)) = false.
Proof. induction secs as [|[[f c] l] secs IH]; [easy|]. cbn. exact IH. Qed.
Lemma parse_text secs es : well_formed 0 secs -> Forall (fun s : section => fst (fst s) + snd (fst s) <= 8388607) secs ->
  parse_stream 1 4 2 (stream_index secs) (flat_map (fun x => entry_raw (snd x)) (flat_map (fun x : section => snd x) secs)) es
  = Ok (fill_secs 0 (map cut_sec secs) es).
Proof.
  intros W L. unfold parse_stream. rewrite index_even. apply (read_pairs_text secs 0); easy || lia.
Qed.
Lemma cut_wf secs : forall lo, well_formed lo secs -> well_formed lo (map cut_sec secs).
Proof.
  induction secs as [|[[f c] l] secs IH]; intros lo W; [easy|]. destruct W as (W1 & W2 & W3 & W4).
  cbn [map cut_sec fst snd well_formed]. rewrite map_length. split; [easy|]. split; [easy|]. split; [easy|]. apply IH; easy.
Qed.
Lemma cut_lists secs n e : lists (map cut_sec secs) n e <-> exists e0, lists secs n e0 /\ e = cut e0.
Proof.
  split.
  - intros (f & c & l & I & H1 & H2 & N). apply in_map_iff in I. destruct I as ([[f' c'] l'] & E & I).
    unfold cut_sec in E. cbn [fst snd] in E. injection E as -> -> <-. rewrite map_map in N. cbn [snd] in N.
    rewrite nth_error_map in N. destruct (nth_error l' (Z.to_nat (n - f))) as [[z x]|] eqn:E; [|easy].
    cbn in N. injection N as <-. exists x. split; [|easy]. exists f, c, l'. split; [easy|]. split; [easy|]. split; [easy|].
    rewrite nth_error_map, E. easy.
  - intros (e0 & (f & c & l & I & H1 & H2 & N) & ->). exists f, c, (map (fun x => (fst x, cut (snd x))) l).
    split; [apply in_map_iff; exists (f, c, l); easy|]. split; [easy|]. split; [easy|].
    rewrite map_map. cbn [snd]. rewrite nth_error_map in *. destruct (nth_error l _) as [[z x]|]; [|easy].
    cbn in *. congruence.
Qed.

(** The entry of the stream object itself *)
Definition patch_entry (me : ref) (v : Z) (x : Z * xent) : Z * xent :=
  if ref_eqb (entry_ref x) me then (fst x, with_variant v (snd x)) else x.
Definition patch_sec (me : ref) (v : Z) (s : section) : section := (fst s, map (patch_entry me v) (snd s)).
Lemma ref_eqb_eq a b : ref_eqb a b = true <-> a = b.
Proof.
  unfold ref_eqb. destruct a as [a1 a2], b as [b1 b2]. cbn [fst snd]. rewrite Bool.andb_true_iff, !Z.eqb_eq.
  split; [intros [-> ->]; easy|]. intros E; injection E; easy.
Qed.
Lemma last_index_none me l : forall i found, Forall (fun x => ref_eqb (entry_ref x) me = false) l -> last_index me i l found = found.
Proof. induction l as [|x l IH]; intros i found F; [easy|]. inversion F as [|? ? F1 F2]; subst. cbn [last_index]. rewrite F1. apply IH; easy. Qed.
Lemma last_index_app me a b : forall i found, last_index me i (a ++ b) found = last_index me (i + Z.of_nat (length a)) b (last_index me i a found).
Proof.
  induction a as [|x a IH]; intros i found; cbn [app last_index length]; [rewrite Z.add_0_r; easy|].
  rewrite IH. f_equal. lia.
Qed.
Lemma set_nth_app {A} (a : list A) x y b : set_nth (length a) y (a ++ x :: b) = a ++ y :: b.
Proof. induction a as [|z a IH]; cbn; [easy|]. rewrite IH. easy. Qed.
Lemma map_patch_none me v l : Forall (fun x => ref_eqb (entry_ref x) me = false) l -> map (patch_entry me v) l = l.
Proof. induction l as [|x l IH]; intros F; [easy|]. inversion F as [|? ? F1 F2]; subst. cbn. unfold patch_entry at 1. rewrite F1, IH; easy. Qed.
Lemma ascends_app a b : ascends (a ++ b) <-> ascends a /\ ascends b /\ forall x y, In x a -> In y b -> x < y.
Proof.
  induction a as [|z a IH]; cbn [app ascends In]; [firstorder|]. rewrite IH. setoid_rewrite in_app_iff. split.
  - intros (H1 & H2 & H3 & H4). repeat split; auto. intros x y [<- | I] J; auto.
  - intros ((H1 & H2) & H3 & H4). repeat split; auto. intros y [I | I]; auto.
Qed.
Lemma flat_ascends secs : forall lo, well_formed lo secs -> numbered secs ->
  ascends (map fst (flat_map (fun x : section => snd x) secs)) /\
  Forall (fun x => lo <= fst x) (flat_map (fun x : section => snd x) secs).
Proof.
  induction secs as [|[[f c] l] secs IH]; intros lo W N; [split; [exact I|constructor]|].
  destruct W as (W1 & W2 & W3 & W4). inversion N as [|? ? N1 N2]; subst. cbn [fst snd] in N1. cbn [flat_map snd].
  destruct (IH _ W4 N2) as [A F].
  assert (S1 : forall f, (forall i x, nth_error l i = Some x -> fst x = f + Z.of_nat i) ->
               ascends (map fst l) /\ Forall (fun x => f <= fst x < f + Z.of_nat (length l)) l).
  { clear. induction l as [|x l IH]; intros f N; [easy|].
    destruct (IH (f + 1)) as [A F].
    { intros i y E. rewrite (N (S i) y E). lia. }
    pose proof (N O x eq_refl) as X. cbn [Z.of_nat] in X. cbn [map ascends length]. split.
    - split; [|easy]. intros y I. apply in_map_iff in I. destruct I as (w & <- & I). rewrite Forall_forall in F. specialize (F _ I). cbv beta in F. lia.
    - constructor; [lia|]. apply Forall_forall. intros y I. rewrite Forall_forall in F. specialize (F _ I). cbv beta in F. lia. }
  destruct (S1 f N1) as [B G]. split.
  - rewrite map_app. apply ascends_app. split; [easy|]. split; [easy|]. intros x y I J.
    apply in_map_iff in I, J. destruct I as (a & <- & I), J as (b & <- & J). rewrite Forall_forall in F, G.
    specialize (F _ J). specialize (G _ I). cbv beta in F, G. lia.
  - apply Forall_app. split; apply Forall_forall; intros x I.
    + rewrite Forall_forall in G. specialize (G _ I). cbv beta in G. lia.
    + rewrite Forall_forall in F. specialize (F _ I). cbv beta in F. lia.
Qed.
Lemma patch_flat me v l : ascends (map fst l) -> (exists x, In x l /\ entry_ref x = me) ->
  exists i, last_index me 0 l (-1) = Z.of_nat i /\ patch i v l = map (patch_entry me v) l.
Proof.
  intros A (x & I & E). apply in_split in I. destruct I as (a & b & ->).
  rewrite map_app in A. cbn [map] in A. apply ascends_app in A. destruct A as (A1 & (A2 & A3) & A4).
  assert (NA : Forall (fun x => ref_eqb (entry_ref x) me = false) a).
  { apply Forall_forall. intros y I. destruct (ref_eqb (entry_ref y) me) eqn:Q; [|easy]. apply ref_eqb_eq in Q.
    assert (fst y = fst x) by (rewrite <- E in Q; unfold entry_ref in Q; congruence).
    assert (fst y < fst x) by (apply A4; [apply in_map; easy|left; easy]). lia. }
  assert (NB : Forall (fun x => ref_eqb (entry_ref x) me = false) b).
  { apply Forall_forall. intros y I. destruct (ref_eqb (entry_ref y) me) eqn:Q; [|easy]. apply ref_eqb_eq in Q.
    assert (fst y = fst x) by (rewrite <- E in Q; unfold entry_ref in Q; congruence).
    assert (fst x < fst y) by (apply A2, in_map; easy). lia. }
  exists (length a). split.
  - rewrite last_index_app. cbn [last_index]. rewrite (proj2 (ref_eqb_eq _ _) E), last_index_none; [lia|easy].
  - unfold patch. rewrite nth_error_app2, Nat.sub_diag by lia. cbn [nth_error]. destruct x as [n e].
    rewrite set_nth_app, map_app. cbn [map]. rewrite !map_patch_none by easy. f_equal. f_equal.
    unfold patch_entry. rewrite (proj2 (ref_eqb_eq _ _) E). easy.
Qed.
Lemma patch_wf me v secs : forall lo, well_formed lo secs -> well_formed lo (map (patch_sec me v) secs).
Proof.
  induction secs as [|[[f c] l] secs IH]; intros lo W; [easy|]. destruct W as (W1 & W2 & W3 & W4).
  cbn [map patch_sec fst snd well_formed]. rewrite map_length. split; [easy|]. split; [easy|]. split; [easy|]. apply IH; easy.
Qed.
Lemma patch_lists me v secs n e : numbered secs ->
  (lists (map (patch_sec me v) secs) n e <-> exists e0, lists secs n e0 /\ e = snd (patch_entry me v (n, e0))).
Proof.
  intros NB. split.
  - intros (f & c & l & I & H1 & H2 & N). apply in_map_iff in I. destruct I as ([[f' c'] l'] & E & I).
    unfold patch_sec in E. cbn [fst snd] in E. injection E as -> -> <-. rewrite map_map in N.
    rewrite nth_error_map in N. destruct (nth_error l' (Z.to_nat (n - f))) as [[z x]|] eqn:E; [|easy].
    cbn [option_map] in N. injection N as <-. unfold numbered in NB. rewrite Forall_forall in NB. specialize (NB _ I _ _ E).
    cbn [fst snd] in NB. assert (z = n) as -> by lia.
    exists x. split; [|easy]. exists f, c, l'. split; [easy|]. split; [easy|]. split; [easy|].
    rewrite nth_error_map, E. easy.
  - intros (e0 & (f & c & l & I & H1 & H2 & N) & ->). exists f, c, (map (patch_entry me v) l).
    split; [apply in_map_iff; exists (f, c, l); easy|]. split; [easy|]. split; [easy|].
    rewrite map_map. rewrite nth_error_map in *. destruct (nth_error l _) as [[z x]|] eqn:E; [|easy].
    unfold numbered in NB. rewrite Forall_forall in NB. specialize (NB _ I _ _ E). cbn [fst snd] in NB. assert (z = n) as -> by lia.
    cbn [option_map snd] in *. injection N as ->. easy.
Qed.
Lemma patch_index me v secs : stream_index (map (patch_sec me v) secs) = stream_index secs.
Proof. unfold stream_index. induction secs as [|[[f c] l] secs IH]; [easy|]. cbn. rewrite <- IH. easy. Qed.
Lemma patch_flat_secs me v secs : flat_map (fun x : section => snd x) (map (patch_sec me v) secs) =
  map (patch_entry me v) (flat_map (fun x : section => snd x) secs).
Proof. induction secs as [|[[f c] l] secs IH]; [easy|]. cbn [map flat_map patch_sec snd]. rewrite IH, map_app. easy. Qed.

(** Any written cross-reference stream *)
Lemma stream_read_back me off secs es e0 : well_formed 0 secs -> numbered secs ->
  Forall (fun s : section => fst (fst s) + snd (fst s) <= 8388607) secs ->
  lists secs (fst me) e0 -> entry_ref (fst me, e0) = me ->
  exists data es', stream_data me off secs = Ok data /\ parse_stream 1 4 2 (stream_index secs) data es = Ok es' /\
    forall n, 0 <= n ->
      match look es n with
      | Some x => look es' n = Some x
      | None => forall x, look es' n = Some x <->
                  exists e, lists secs n e /\ x = as_read 0 (cut (if n =? fst me then with_variant (u32 off) e else e))
      end.
Proof.
  intros W N L LM ME.
  set (secs' := map (patch_sec me (u32 off)) secs).
  exists (flat_map (fun x => entry_raw (snd x)) (flat_map (fun x : section => snd x) secs')), (fill_secs 0 (map cut_sec secs') es).
  destruct (flat_ascends secs 0 W N) as [A _].
  assert (W' : well_formed 0 secs') by (apply patch_wf; easy).
  assert (L' : Forall (fun s : section => fst (fst s) + snd (fst s) <= 8388607) secs').
  { apply Forall_forall. intros s I. apply in_map_iff in I. destruct I as (s0 & <- & I). rewrite Forall_forall in L. apply (L _ I). }
  split; [|split].
  - unfold stream_data. destruct (patch_flat me (u32 off) _ A) as (i & E1 & E2).
    { destruct LM as (f & c & l & I & H1 & H2 & NT). rewrite nth_error_map in NT.
      destruct (nth_error l (Z.to_nat (fst me - f))) as [[z x]|] eqn:E; [|easy]. cbn [option_map snd] in NT. injection NT as ->.
      pose proof N as NB. unfold numbered in NB. rewrite Forall_forall in NB. specialize (NB _ I _ _ E). cbn [fst snd] in NB.
      assert (z = fst me) as -> by lia. exists (fst me, e0). split; [|easy].
      apply in_flat_map. exists (f, c, l). split; [easy|]. apply nth_error_In in E. easy. }
    rewrite E1. destruct (Z.ltb_spec (Z.of_nat i) 0); [lia|]. rewrite Nat2Z.id, E2. unfold secs'. rewrite patch_flat_secs. easy.
  - rewrite <- (patch_index me (u32 off) secs). apply parse_text; easy.
  - intros n P. pose proof (fill_secs_look 0 (map cut_sec secs') 0 es n ltac:(lia) (cut_wf _ _ W') P) as K.
    destruct (look es n) as [x|]; [exact K|]. intros x. rewrite (K x). clear K. split.
    + intros (e & H & ->). apply cut_lists in H. destruct H as (e1 & H & ->). apply patch_lists in H; [|easy].
      destruct H as (e2 & H & ->). exists e2. split; [easy|]. f_equal. f_equal. unfold patch_entry.
      destruct (Z.eqb_spec n (fst me)) as [-> | D].
      * rewrite (lists_fun secs 0 (fst me) e2 e0 W H LM), (proj2 (ref_eqb_eq _ _) ME). easy.
      * destruct (ref_eqb (entry_ref (n, e2)) me) eqn:Q; [|easy]. apply ref_eqb_eq in Q.
        exfalso. apply D. rewrite <- Q. easy.
    + intros (e & H & ->). eexists. split; [|reflexivity]. apply cut_lists. eexists. split; [|reflexivity].
      apply patch_lists; [easy|]. exists e. split; [easy|]. unfold patch_entry.
      destruct (Z.eqb_spec n (fst me)) as [-> | D].
      * rewrite (lists_fun secs 0 (fst me) e e0 W H LM), (proj2 (ref_eqb_eq _ _) ME). easy.
      * destruct (ref_eqb (entry_ref (n, e)) me) eqn:Q; [|easy]. apply ref_eqb_eq in Q.
        exfalso. apply D. rewrite <- Q. easy.
Qed.
Lemma cut_fits e : fits_stream e -> cut e = e.
Proof.
  destruct e as [n g | off g]; cbn [fits_stream cut]; intros H; rewrite u32_small by lia;
    unfold u16; rewrite Z.mod_small by lia; easy.
Qed.

(** From the objects added *)
Lemma placed_free me off adds n g : added_free adds n g -> (n, g) <> me -> added_free (placed me off adds) n g.
Proof.
  intros F D. unfold added_free, placed in *. apply in_map_iff. exists ((n, g), XFreed). split; [|easy]. cbn [fst].
  destruct (ref_eqb (n, g) me) eqn:Q; [|easy]. apply ref_eqb_eq in Q. easy.
Qed.
Lemma NoDup_num adds r a r' a' : addable adds -> In (r, a) adds -> In (r', a') adds -> fst r = fst r' -> (r, a) = (r', a').
Proof.
  intros [ND _] I J E. induction adds as [|y l IH]; [easy|]. cbn [map] in ND. inversion ND as [|? ? N1 N2]; subst.
  destruct I as [-> | I], J as [J | J].
  - easy.
  - exfalso. apply N1. apply in_map_iff. exists (r', a'). cbn [fst]. split; [symmetry; exact E|easy].
  - subst y. exfalso. apply N1. apply in_map_iff. exists (r, a). cbn [fst]. split; [exact E|easy].
  - apply IH; easy.
Qed.
Lemma placed_free_iff me off adds o n g : addable adds -> In (me, XInUse o) adds ->
  (added_free (placed me off adds) n g <-> added_free adds n g).
Proof.
  intros AD I. split.
  - unfold added_free, placed. rewrite in_map_iff. intros (x & E & J). destruct (ref_eqb (fst x) me); [easy|]. subst x. easy.
  - intros F. apply placed_free; [easy|]. intros <-. pose proof (NoDup_num adds _ _ _ _ AD I F eq_refl). easy.
Qed.
Lemma due_placed me off adds dummy n e : addable adds -> In (me, XInUse (Some dummy)) adds ->
  (due (placed me off adds) n e <-> exists e0, due adds n e0 /\ e = if n =? fst me then with_variant off e0 else e0).
Proof.
  intros AD I.
  assert (NL : forall m, next_link (placed me off adds) n m <-> next_link adds n m).
  { intros m. unfold next_link. pose proof (placed_free_iff me off adds (Some dummy)) as K.
    split; intros [((g & H1) & H2 & H3) | [H1 H2]].
    - left. split; [exists g; apply K; easy|]. split; [easy|]. intros k g' F. apply (H3 k g'), K; easy.
    - right. split; [easy|]. intros k g' F. apply (H2 k g'), K; easy.
    - left. split; [exists g; apply K; easy|]. split; [easy|]. intros k g' F. apply (H3 k g'). apply K in F; easy.
    - right. split; [easy|]. intros k g' F. apply (H2 k g'). apply K in F; easy. }
  split.
  - destruct e as [m g | v g]; cbn [due]; intros H.
    + destruct H as [H1 H2]. apply NL in H2. apply (placed_free_iff me off adds (Some dummy)) in H1; try easy.
      exists (XFree m g). split; [easy|]. destruct (Z.eqb_spec n (fst me)) as [-> | D]; [|easy].
      exfalso. pose proof (NoDup_num adds _ _ _ _ AD I H1 eq_refl). easy.
    + unfold added_used, placed in H. apply in_map_iff in H. destruct H as (x & E & J).
      destruct (ref_eqb (fst x) me) eqn:Q.
      * injection E as E1 E2. subst me v. exists (XUsed dummy g). cbn [fst snd]. rewrite Z.eqb_refl. easy.
      * subst x. exists (XUsed v g). split; [easy|]. cbn [fst] in Q. destruct (Z.eqb_spec n (fst me)) as [-> | D]; [|easy].
        pose proof (NoDup_num adds _ _ _ _ AD I J eq_refl) as X. injection X as X _. rewrite <- X in Q.
        rewrite (proj2 (ref_eqb_eq _ _) eq_refl) in Q. easy.
  - intros (e0 & D0 & ->). destruct (Z.eqb_spec n (fst me)) as [-> | D].
    + destruct e0 as [m g | v g]; cbn [due] in D0.
      * destruct D0 as [D0 _]. pose proof (NoDup_num adds _ _ _ _ AD I D0 eq_refl). easy.
      * pose proof (NoDup_num adds _ _ _ _ AD I D0 eq_refl) as X. injection X as X1 X2. cbn [with_variant due].
        unfold added_used, placed. apply in_map_iff. exists (me, XInUse (Some dummy)). cbn [fst].
        rewrite (proj2 (ref_eqb_eq _ _) eq_refl). split; [|easy]. f_equal. exact X1.
    + destruct e0 as [m g | v g]; cbn [due] in *.
      * destruct D0 as [D0 D1]. split; [|apply NL; easy]. apply (placed_free_iff me off adds (Some dummy)); easy.
      * unfold added_used, placed in *. apply in_map_iff. exists ((n, g), XInUse (Some v)). cbn [fst].
        destruct (ref_eqb (n, g) me) eqn:Q; [apply ref_eqb_eq in Q; rewrite <- Q in D; easy|easy].
Qed.
Lemma stream_of_adds adds (inc : bool) secs me off dummy : addable adds -> Forall fits_add_stream adds ->
  In (me, XInUse (Some dummy)) adds -> 0 <= off < 2 ^ 32 ->
  xref_sections (if inc then first_empty (add_objects adds) else add_objects adds) = Ok secs ->
  exists data es, stream_data me off secs = Ok data /\ parse_stream 1 4 2 (stream_index secs) data [] = Ok es /\
    forall n, 1 <= n -> forall x, look es n = Some x <-> exists e, due (placed me off adds) n e /\ x = as_read 0 e.
Proof.
  intros AD F I O E.
  assert (SO : inc = true \/ something adds).
  { right. exists (fst me), (snd me). left. exists dummy. unfold added_used. rewrite <- surjective_pairing. exact I. }
  destruct (sections_of_adds_full adds inc AD SO) as (secs' & E' & NB & W & H1 & H0). rewrite E in E'. injection E' as <-.
  pose proof AD as [ND AR]. rewrite Forall_forall in AR.
  assert (P1 : 1 <= fst me) by (specialize (AR _ I); cbn [fst] in AR; lia).
  assert (NLB : forall n m, next_link adds n m -> 0 <= m < 8388607).
  { intros n m [((g & K) & _) | [-> _]]; [|lia]. rewrite Forall_forall in F. specialize (F _ K). specialize (AR _ K).
    unfold fits_add_stream in F. cbn [fst snd] in F, AR. lia. }
  assert (K : forall n e, lists secs n e -> n < 8388607 /\ fits_stream e).
  { intros n e L. destruct (Z.lt_trichotomy n 0) as [N | [-> | N]].
    - exfalso. eapply wf_not_below; eassumption.
    - apply H0 in L. destruct L as (_ & m & M & ->). pose proof (NLB _ _ M). cbn. lia.
    - apply H1 in L; [|lia]. rewrite Forall_forall in F. destruct e as [m g | v g]; cbn [due] in L.
      + destruct L as [L M]. pose proof (NLB _ _ M). specialize (F _ L). unfold fits_add_stream in F. cbn [fst snd] in F. cbn. lia.
      + specialize (F _ L). unfold fits_add_stream in F. cbn [fst snd] in F. cbn. lia. }
  assert (LM : Forall (fun s : section => fst (fst s) + snd (fst s) <= 8388607) secs).
  { rewrite Forall_forall. intros [[f c] l] IS. cbn [fst snd].
    destruct (wf_section secs 0 f c l W IS) as (C1 & C2 & C3).
    destruct (nth_error (map snd l) (length l - 1)) as [e|] eqn:N.
    + destruct (section_nth secs 0 f c l _ e W IS N) as (_ & L & _). apply K in L. lia.
    + exfalso. apply nth_error_None in N. rewrite map_length in N. lia. }
  assert (LME : lists secs (fst me) (XUsed dummy (snd me))).
  { apply H1; [easy|]. cbn [due]. unfold added_used. rewrite <- surjective_pairing. exact I. }
  destruct (stream_read_back me off secs [] _ W NB LM LME) as (data & es & D1 & D2 & D3); [destruct me; easy|].
  exists data, es. split; [easy|]. split; [easy|]. intros n P x. specialize (D3 n ltac:(lia)).
  replace (look [] n) with (@None rent) in D3 by (unfold look; destruct (Z.to_nat n); easy). rewrite (D3 x).
  assert (FV : forall e, fits_stream e -> cut (with_variant (u32 off) e) = with_variant off e).
  { intros e FE. rewrite u32_small by easy. apply cut_fits. destruct e; cbn in *; lia. }
  split.
  - intros (e & L & ->). pose proof (K _ _ L) as [_ FE]. exists (if n =? fst me then with_variant off e else e). split.
    + apply (due_placed me off adds dummy); [easy|easy|]. exists e. split; [apply H1; easy|easy].
    + destruct (n =? fst me); [rewrite FV by easy; easy|rewrite cut_fits; easy].
  - intros (e & D & ->). apply (due_placed me off adds dummy) in D; [|easy|easy]. destruct D as (e0 & D & ->).
    apply H1 in D; [|easy]. pose proof (K _ _ D) as [_ FE]. exists e0. split; [easy|].
    destruct (n =? fst me); [rewrite FV by easy; easy|rewrite cut_fits; easy].
Qed.

(** Reading stays inside the data *)
Lemma read_field_in w : forall acc mem, (w <= length mem)%nat -> exists v, read_field w acc mem = Ok (v, skipn w mem).
Proof.
  induction w as [|w IH]; intros acc mem L; cbn [read_field]; [eexists; easy|].
  destruct mem as [|b t]; [cbn in L; lia|]. cbn [length] in L. cbn [skipn]. apply IH. lia.
Qed.
Lemma read_raw_in w0 w1 w2 mem : 0 <= w0 -> 0 <= w1 -> 0 <= w2 -> w0 + w1 + w2 <= Z.of_nat (length mem) ->
  read_raw w0 w1 w2 mem <> UB.
Proof.
  intros P0 P1 P2 L. unfold read_raw, read_width.
  destruct (8 <? w0); [easy|]. destruct (read_field_in (Z.to_nat w0) 0 mem ltac:(lia)) as (v0 & ->). cbn [bind snd fst].
  destruct (8 <? w1); [easy|]. destruct (read_field_in (Z.to_nat w1) 0 (skipn (Z.to_nat w0) mem)) as (v1 & ->); [rewrite skipn_length; lia|]. cbn [bind snd fst].
  destruct (8 <? w2); [easy|]. destruct (read_field_in (Z.to_nat w2) 0 (skipn (Z.to_nat w1) (skipn (Z.to_nat w0) mem))) as (v2 & ->); [rewrite !skipn_length; lia|]. cbn [bind snd fst].
  destruct (_ =? 0); [easy|]. destruct (_ =? 1); [easy|]. destruct (_ =? 2); easy.
Qed.
Lemma read_raws_in w0 w1 w2 n : 0 <= w0 -> 0 <= w1 -> 0 <= w2 -> forall i k mem es,
  Z.of_nat (length mem) = k * (w0 + w1 + w2) + 1 -> 0 <= k ->
  match read_raws n i w0 w1 w2 mem es with
  | Ok p => exists k', 0 <= k' /\ Z.of_nat (length (fst p)) = k' * (w0 + w1 + w2) + 1
  | Err _ => True
  | _ => False
  end.
Proof.
  intros P0 P1 P2. induction n as [|n IH]; intros i k mem es L K; cbn [read_raws]; [exists k; easy|].
  destruct mem as [|b0 [|b1 t]]; [easy|easy|]. set (mem := b0 :: b1 :: t) in *.
  assert (ML : 2 <= Z.of_nat (length mem)) by (cbn [length mem]; lia).
  assert (K1 : 1 <= k). { destruct (Z.eq_dec k 0) as [-> | ]; lia. }
  assert (W : w0 + w1 + w2 <= Z.of_nat (length mem)) by nia.
  assert (NX : forall es', match read_raws n (i + 1) w0 w1 w2 (skipn (Z.to_nat (w0 + w1 + w2)) mem) es' with
     | Ok p => exists k', 0 <= k' /\ Z.of_nat (length (fst p)) = k' * (w0 + w1 + w2) + 1 | Err _ => True | _ => False end).
  { intros es'. apply (IH (i + 1) (k - 1)); [|lia]. rewrite skipn_length. rewrite Nat2Z.inj_sub by lia. rewrite Z2Nat.id by lia. nia. }
  destruct (nth_error es (Z.to_nat (u32 i))) as [[x|]|]; cbn [bind]; try apply NX.
  pose proof (read_raw_in w0 w1 w2 mem P0 P1 P2 W) as R.
  assert (NF : read_raw w0 w1 w2 mem <> Fuel).
  { unfold read_raw, read_width. 
    assert (F : forall w acc m, read_field w acc m <> Fuel) by (induction w as [|w IHw]; intros acc [|x m]; cbn [read_field]; easy || apply IHw).
    destruct (8 <? w0); [easy|]. destruct (read_field (Z.to_nat w0) 0 mem) as [p| | |] eqn:E; cbn [bind]; try easy; try (exfalso; eapply F; eassumption).
    destruct (8 <? w1); [easy|]. destruct (read_field (Z.to_nat w1) 0 (snd p)) as [p'| | |] eqn:E'; cbn [bind]; try easy; try (exfalso; eapply F; eassumption).
    destruct (8 <? w2); [easy|]. destruct (read_field (Z.to_nat w2) 0 (snd p')) as [p''| | |] eqn:E''; cbn [bind]; try easy; try (exfalso; eapply F; eassumption).
    destruct (_ =? 0); [easy|]. destruct (_ =? 1); [easy|]. destruct (_ =? 2); easy. }
  destruct (read_raw w0 w1 w2 mem) as [e| | |]; cbn [bind]; try easy. apply NX.
Qed.
Lemma read_pairs_in w0 w1 w2 : 0 <= w0 -> 0 <= w1 -> 0 <= w2 -> forall m idx k mem es, (length idx <= m)%nat -> sums_ok idx ->
  Z.of_nat (length mem) = k * (w0 + w1 + w2) + 1 -> 0 <= k ->
  read_pairs idx w0 w1 w2 mem es <> UB.
Proof.
  intros P0 P1 P2. induction m as [|m IH]; intros idx k mem es LI SO L K.
  - destruct idx; [easy|cbn in LI; lia].
  - destruct idx as [|a [|b t]]; try easy. cbn [read_pairs]. destruct SO as [S1 S2]. rewrite S1. cbn [negb].
    unfold enlarge. destruct (_ <? 0); [easy|]. destruct (_ <? _); [easy|]. cbn [bind].
    match goal with |- context [read_raws ?n ?i w0 w1 w2 mem ?e] => pose proof (read_raws_in w0 w1 w2 n P0 P1 P2 i k mem e L K) as R;
      destruct (read_raws n i w0 w1 w2 mem e) as [p| | |]; cbn [bind]; try easy end.
    destruct R as (k' & K' & L'). apply (IH t k'); try easy. cbn [length] in LI. lia.
Qed.
Lemma parse_stream_in w0 w1 w2 idx data es : sums_ok idx ->
  (w0 + w1 + w2 | Z.of_nat (length data)) -> parse_stream w0 w1 w2 idx data es <> UB.
Proof.
  intros SO [k D]. unfold parse_stream.
  destruct (Z.ltb_spec w0 0); [easy|]. destruct (Z.ltb_spec w1 0); [easy|]. destruct (Z.ltb_spec w2 0); [easy|]. cbn [orb].
  destruct (_ <? _); [easy|]. destruct (Nat.odd _); [easy|].
  assert (0 <= k \/ length data = O) as [K | K].
  { destruct (Z.le_gt_cases 0 k); [left; lia|right]. nia. }
  - apply (read_pairs_in w0 w1 w2 ltac:(easy) ltac:(easy) ltac:(easy) (length idx) idx k); try easy.
    rewrite app_length. cbn [length]. lia.
  - apply (read_pairs_in w0 w1 w2 ltac:(easy) ltac:(easy) ltac:(easy) (length idx) idx 0); try easy.
    rewrite app_length. cbn [length]. lia.
Qed.
