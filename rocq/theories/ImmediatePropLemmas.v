(** Lemmas for the properties of documents that are written while they are made *)
From Coq Require Import String Lia.
From Verif Require Import Base TokModel WriteModel DictProofs ChainProofs ObjSpec FilterModel ListModel ListProofs OwnModel UpdateModel UpdateSpec UpdateProofs StreamModel StreamSpec StreamProofs StreamLoadProofs ImmediateModel ImmediateSpec ImmediateProofs.
Local Open Scope Z_scope.
Local Notation dict := (list (list Z * obj)) (only parsing).

Lemma run_app o xs : forall ys d d', run o (xs ++ ys) d = (Ok tt, d') <-> exists d1, run o xs d = (Ok tt, d1) /\ run o ys d1 = (Ok tt, d').
Proof.
  induction xs as [|x xs IH]; intros ys d d'; cbn [app run].
  - split; [intro H; exists d; auto|intros (d1 & [= ->] & H); exact H].
  - destruct (step o x d) as [[[]| | |] d1]; [apply IH| | |]; (split; [discriminate|intros (? & ? & ?); discriminate]).
Qed.
Lemma closed_none d r : outputs d = [] -> is_open d r = false. Proof. unfold is_open. intros ->. reflexivity. Qed.

(** The length of a stream that has been written *)
Lemma length_there calls d r off e l o : good calls d -> placed o calls d r off e l -> outputs d = [] -> at_ref (objects (finish_last d)) l = Some (ONum (Z.of_nat (length (content r calls)))) /\ streams (finish_last d) l = None.
Proof.
  intros G P O. pose proof (finish_good _ _ G) as G1. pose proof (finish_placed _ _ _ _ _ _ _ P) as (_ & I & (len & k & S0) & _).
  destruct (g_len _ _ G1 r len l k S0 (ex_intro _ off I)) as [A [B|B]].
  - destruct (finish_same d) as (_ & E & _). rewrite closed_none in B by congruence. discriminate.
  - rewrite B, A. split; [reflexivity|]. apply (g_dir _ _ G1 r len l k S0).
Qed.
Lemma number_fine n : 0 <= n < 2 ^ 63 -> wf_obj default_params (ONum n). Proof. intro H. cbn [wf_obj]. unfold int64_ok. lia. Qed.

Lemma written_loaded z n o header xs r ts ys d1 d e f : options_ok (wfl o) (wtight o) -> (forall q, wflate o q = false) -> Forall keeps_length (xs ++ Open r ts :: ys) ->
  run o xs (start header) = (Ok tt, d1) -> direct d1 r -> at_ref (objects d1) r = Some (ODict e) -> run o (Open r ts :: ys) d1 = (Ok tt, d) -> outputs d = [] ->
  write_all z n o (objects (finish_last d)) (finish_last d) = (Ok tt, f) ->
  wf_obj default_params (ODict e) -> (S (inner (ODict e)) <= 256)%nat -> count d <= 2 ^ 32 ->
  let data := content r (xs ++ Open r ts :: ys) in Z.of_nat (length data) < 2 ^ 63 ->
  exists m off offl, dict_get (bs "Length") e = Some (ORef m 0) /\ List.In (r, off) (table f) /\ List.In ((m, 0), offl) (table f) /\ 
    load_object (dev f) offl = Ok ((m, 0), ONum (Z.of_nat (length data)), false) /\
    (forall look fs, look (m, 0) = Some (ONum (Z.of_nat (length data))) -> create_filter_list look (ODict e) = Ok fs -> load_stream look (dev f) off = Ok (r, mk_sobj e data fs)).
Proof.
  intros OK F K R1 (len & l & S1) A R2 O WA W D CT data DL.
  assert (K1 : Forall keeps_length xs /\ Forall keeps_length (Open r ts :: ys)) by (apply Forall_app; exact K). destruct K1 as [K1 K2].
  pose proof (run_good o F xs [] _ _ K1 (good_start header) R1) as G1. cbn [app] in G1.
  pose proof (run_good o F _ xs _ _ K2 G1 R2) as G2.
  cbn [run] in R2. destruct (step o (Open r ts) d1) as [[[]| | |] d2] eqn:ST; try discriminate. cbn [step] in ST.
  destruct (open_placed o xs d1 d2 r ts e len l F G1 A S1 ST) as (off & P & LE).
  assert (G3 : good (xs ++ [Open r ts]) d2) by (eapply open_good; eassumption).
  inversion K2 as [|? ? _ K3]; subst.
  pose proof (run_placed o r off e l F ys _ _ _ K3 G3 P R2) as P2. rewrite <- app_assoc in P2. change ([Open r ts] ++ ys) with (Open r ts :: ys) in P2. fold data in P2.
  assert (FI : finish z n o d = (Err ENotImplemented, f)) by (unfold finish; rewrite WA; reflexivity).
  destruct (finish_stands z n o _ d f r off e l P2 FI) as [IT (O0 & h & k & (t & WT & ->) & SK)]. fold data in SK.
  destruct (length_there _ d r off e l o G2 P2 O) as [LN LS]. fold data in LN.
  assert (GR : snd r = 0 /\ 0 <= fst r < count d).
  { destruct P2 as (_ & _ & (len2 & k2 & S2) & _). exact (g_str _ _ G2 r _ S2). }
  pose proof (finish_good _ _ G2) as G4. destruct (g_obj _ _ G4 l _ LN) as [L0 LC]. destruct (finish_same d) as (_ & _ & _ & _ & _ & EC). rewrite EC in LC.
  destruct l as [m g]. cbn [fst snd] in *. subst g.
  destruct (write_all_each z n o _ _ _ WA _ _ (at_in _ _ _ LN)) as (offl & b & k2 & dx & OL & IL & E1 & E2 & T & SL).
  exists m, off, offl. repeat split; try assumption.
  - unfold one_text in T. rewrite E2, LS in T. eapply load_text; [exact (proj1 OK)|exact (proj2 OK)|apply number_fine; lia|cbn; lia|lia|lia|exact T|exact SL].
  - intros look fs LK CF. destruct r as [rn rg]. cbn [fst snd] in *. destruct GR as [-> GC]. eapply stream_loads; try eassumption; cbn [fst snd]; try lia.
    rewrite dict_find_resolve, LE. cbn [resolve]. exact LK.
Qed.

(** Streams in memory *)
Definition in_memory (calls : list op) (d : sdoc) : Prop :=
  (forall r b fs, streams d r = Some (Memory b fs) -> b = content r calls) /\ (forall r, streams d r = None -> content r calls = []).
Lemma step_memory o calls d d' x : (forall q, wflate o q = false) -> in_memory calls d -> step o x d = (Ok tt, d') -> in_memory (calls ++ [x]) d'.
Proof.
  intros F [M N] H. destruct x as [v|q|q j v|q ts|q b|q]; cbn [step] in H.
  - injection H as <-. split; intros; rewrite content_snoc; cbn [given]; [eapply M|apply N]; eassumption.
  - unfold create_stream in H. destruct (at_ref (objects d) q) as [v|]; [|discriminate]. destruct (streams d q) eqn:S0.
    + injection H as <-. split; intros; rewrite content_snoc; cbn [given]; [eapply M|apply N]; eassumption.
    + destruct v as [| | | | | | | |e0]; try discriminate. destruct (opened d); [injection H as <-|unfold new_object in H; injection H as <-]; split; cbn [with_stream with_objects streams]; intros r; rewrite put_stream_at, content_snoc; cbn [given];
      destruct (ref_eqb q r) eqn:E; try discriminate; try (apply M); try (apply N). intros b fs [= <- <-]. apply ref_eqb_iff in E. subst r. symmetry. apply N. exact S0.
  - unfold set_entry in H. destruct (at_ref (objects d) q) as [[| | | | | | | |e0]|]; try discriminate. injection H as <-. split; intros; rewrite content_snoc; cbn [given]; [eapply M|apply N]; eassumption.
  - destruct (direct_dec d q) as [(len0 & l0 & S1)|ND].
    + destruct (open_direct o q ts d d' len0 l0 F S1 H) as (v & t & V0 & W & IO & ->). destruct (finish_same (set_opened d)) as (E1 & _). split; cbn [streams]; rewrite E1; cbn [set_opened streams]; intros r; rewrite content_snoc; cbn [given];
      destruct (ref_eqb q r) eqn:E; try (apply ref_eqb_iff in E; subst r; congruence); [apply M|apply N].
    + destruct (open_memory o q ts d d' ND H) as (x & fs & v & V0 & S1 & IO & ->). split; cbn [with_outputs with_stream streams]; intros r; rewrite put_stream_at, content_snoc; cbn [given]; destruct (ref_eqb q r); try discriminate; [congruence|apply M|apply N].
  - unfold put_bytes in H. destruct (is_open d q); [|discriminate]. destruct (at_ref (objects d) q); [|discriminate]. destruct (streams d q) as [[x fs|len0 l0 k0]|] eqn:S1; [| |discriminate]; apply pair_equal_spec in H; destruct H as [_ <-];
    split; cbn [with_stream with_dev streams]; intros r; rewrite put_stream_at, content_snoc; cbn [given]; destruct (ref_eqb q r) eqn:E; try discriminate; try (apply M); try (apply N).
    intros b' fs' [= <- <-]. apply ref_eqb_iff in E. subst r. f_equal. exact (M _ _ _ S1).
  - unfold close_output in H. destruct (at_ref (outputs d) q) as [ts|]; [|discriminate]. destruct (at_ref (objects d) q) as [[| | | | | | | |e0]|]; try discriminate.
    destruct (streams d q) as [[x fs|len0 l0 k0]|] eqn:S1; [| |discriminate].
    + apply pair_equal_spec in H; destruct H as [_ <-]. split; cbn [with_stream with_outputs with_objects streams]; intros r; rewrite put_stream_at, content_snoc; cbn [given]; destruct (ref_eqb q r) eqn:E; try discriminate; try (apply M); try (apply N).
      intros b fs' [= <- <-]. apply ref_eqb_iff in E. subst r. exact (M _ _ _ S1).
    + destruct (at_ref (objects d) l0); [|discriminate]. apply pair_equal_spec in H; destruct H as [_ <-]. split; intros; rewrite content_snoc; cbn [given]; [eapply M|apply N]; eassumption.
Qed.
Lemma run_memory o : (forall q, wflate o q = false) -> forall xs calls d d', in_memory calls d -> run o xs d = (Ok tt, d') -> in_memory (calls ++ xs) d'.
Proof.
  intro F. induction xs as [|x xs IH]; intros calls d d' G H; cbn [run] in H.
  - injection H as <-. rewrite app_nil_r. exact G.
  - destruct (step o x d) as [[[]| | |] d1] eqn:S0; try discriminate. change (x :: xs) with ([x] ++ xs). rewrite app_assoc. eapply IH; [|exact H]. eapply step_memory; eassumption.
Qed.
Lemma start_memory header : in_memory [] (start header).
Proof. split; [intros r b fs H; discriminate H|reflexivity]. Qed.
Lemma memory_loaded z n o header xs d f look r b fs e : options_ok (wfl o) (wtight o) -> (forall q, wflate o q = false) -> Forall keeps_length xs ->
  run o xs (start header) = (Ok tt, d) -> write_all z n o (objects (finish_last d)) (finish_last d) = (Ok tt, f) -> count d <= 2 ^ 32 ->
  at_ref (objects d) r = Some (ODict e) -> streams d r = Some (Memory b fs) ->
  wf_obj default_params (ODict e) -> (S (inner (ODict e)) <= 256)%nat -> Z.of_nat (length b) < 2 ^ 63 -> declared look (mk_sobj e b fs) ->
  b = content r xs /\ exists off, List.In (r, off) (table f) /\ load_stream look (dev f) off = Ok (r, with_length (mk_sobj e b fs)).
Proof.
  intros OK F K R WA CT A S0 W D L DC. split.
  - exact (proj1 (run_memory o F xs [] (start header) d (start_memory header) R) r b fs S0).
  - pose proof (run_good o F xs [] _ _ K (good_start header) R) as G. destruct (finish_same d) as (ES & _).
    assert (A1 : at_ref (objects (finish_last d)) r = Some (ODict e)).
    { unfold finish_last. destruct (last d) as [q|] eqn:LD; [|exact A]. cbn [set_last with_objects objects]. rewrite at_without. destruct (ref_eqb q r) eqn:E; [|exact A]. apply ref_eqb_iff in E. subst q.
      destruct (g_last _ _ G r LD) as [X _]. destruct (g_wdir _ _ G r X) as (? & ? & ? & Y). congruence. }
    destruct (write_all_each z n o _ _ _ WA _ _ (at_in _ _ _ A1)) as (off & t & k & dx & O0 & IT & E1 & E2 & T & SK).
    exists off. split; [exact IT|]. unfold one_text in T. rewrite E2, ES, S0, F in T.
    destruct (write_stream z (at_ref (objects dx)) (wfl o) (wtight o) false n r (mk_sobj e b fs)) as [t' s'] eqn:WS. cbn [fst] in T. subst t'.
    destruct (g_obj _ _ G r _ A) as [G0 GC].
    assert (CS : compress_step z (at_ref (objects dx)) false n (mk_sobj e b fs) = (Ok tt, mk_sobj e b fs)) by reflexivity.
    unfold write_stream in WS. rewrite CS in WS.
    assert (WL : write_stream z look (wfl o) (wtight o) false n r (mk_sobj e b fs) = (Ok t, s')) by exact WS.
    destruct (write_load z look (wfl o) (wtight o) false n r (mk_sobj e b fs) (dev f) off k t s' OK W D ltac:(lia) ltac:(lia) L DC (or_intror eq_refl) WL SK) as [-> LD]. exact LD.
Qed.
Lemma object_loaded z n o header xs d f r v : options_ok (wfl o) (wtight o) -> (forall q, wflate o q = false) -> Forall keeps_length xs ->
  run o xs (start header) = (Ok tt, d) -> write_all z n o (objects (finish_last d)) (finish_last d) = (Ok tt, f) -> count d <= 2 ^ 32 ->
  at_ref (objects d) r = Some v -> streams d r = None -> wf_obj default_params v -> (S (inner v) <= 256)%nat ->
  exists off, List.In (r, off) (table f) /\ load_object (dev f) off = Ok (r, v, false).
Proof.
  intros OK F K R WA CT A S0 W D. pose proof (run_good o F xs [] _ _ K (good_start header) R) as G. destruct (finish_same d) as (ES & _).
  assert (A1 : at_ref (objects (finish_last d)) r = Some v).
  { unfold finish_last. destruct (last d) as [q|] eqn:LD; [|exact A]. cbn [set_last with_objects objects]. rewrite at_without. destruct (ref_eqb q r) eqn:E; [|exact A]. apply ref_eqb_iff in E. subst q.
    destruct (g_last _ _ G r LD) as [X _]. destruct (g_wdir _ _ G r X) as (? & ? & ? & Y). congruence. }
  destruct (write_all_each z n o _ _ _ WA _ _ (at_in _ _ _ A1)) as (off & t & k & dx & O0 & IT & E1 & E2 & T & SK).
  exists off. split; [exact IT|]. unfold one_text in T. rewrite E2, ES, S0 in T. destruct (g_obj _ _ G r _ A) as [G0 GC]. destruct r as [rn rg]. cbn [fst snd] in *.
  eapply load_text; [exact (proj1 OK)|exact (proj2 OK)|exact W|exact D|lia|lia|exact T|exact SK].
Qed.

(** What goes wrong *)
Lemma default_fails o r ts d v len l : wflate o r = true -> at_ref (objects d) r = Some v -> streams d r = Some (Direct len l false) -> is_open d r = false -> last d <> Some r ->
  exists d', open_output o r ts d = (Err ENotImplemented, d') /\ dev d' = dev (finish_last d) ++ dec (fst r) ++ [32] ++ dec (snd r) ++ bs " obj" ++ (if wtight o then [] else [10]) /\
    forall ts', open_output o r ts' d' = (Err EInternalLogic, d').
Proof.
  intros F A S0 IO L. unfold open_output at 1. rewrite A, S0, IO. unfold write_object. destruct (finish_same (set_opened d)) as (E1 & E2 & _).
  assert (A1 : at_ref (objects (finish_last (set_opened d))) r = Some v).
  { unfold finish_last. cbn [set_opened last]. destruct (last d) as [q|] eqn:LD; [|exact A]. cbn [set_last with_objects objects with_dev]. rewrite at_without. destruct (ref_eqb q r) eqn:E; [|exact A]. apply ref_eqb_iff in E. congruence. }
  assert (DV : dev (finish_last (set_opened d)) = dev (finish_last d)) by (unfold finish_last; cbn [set_opened last]; destruct (last d); reflexivity).
  rewrite A1, E1. cbn [set_opened streams]. rewrite S0, F. eexists. split; [reflexivity|]. cbn [with_stream with_dev add_entry dev]. rewrite DV. split; [reflexivity|].
  intro ts'. unfold open_output. cbn [with_stream with_dev add_entry objects streams]. rewrite A1, put_stream_at, ref_eqb_refl. unfold is_open in *. cbn [with_stream with_dev add_entry outputs]. rewrite E2. cbn [set_opened outputs]. rewrite IO. reflexivity.
Qed.
Lemma twice_undefined o r ts d v len l : at_ref (objects d) r = Some v -> streams d r = Some (Direct len l false) -> is_open d r = false -> last d = Some r -> fst (open_output o r ts d) = UB.
Proof.
  intros A S0 IO L. unfold open_output. rewrite A, S0, IO. unfold write_object. replace (at_ref (objects (finish_last (set_opened d))) r) with (@None obj); [reflexivity|].
  unfold finish_last. cbn [set_opened last]. rewrite L. cbn [set_last with_objects objects]. rewrite at_without, ref_eqb_refl. reflexivity.
Qed.
Lemma never_ok z n o d : fst (finish z n o d) <> Ok tt.
Proof. unfold finish. destruct (write_all z n o _ _) as [[[]|e| |] f]; discriminate. Qed.
Lemma stays_open o : forall xs d d', opened d = true -> run o xs d = (Ok tt, d') -> opened d' = true /\ forall r len l k, streams d' r = Some (Direct len l k) -> exists len' k', streams d r = Some (Direct len' l k').
Proof.
  induction xs as [|x xs IH]; intros d d' O H; cbn [run] in H; [injection H as <-; split; [exact O|eauto]|].
  destruct (step o x d) as [[[]| | |] d1] eqn:S0; try discriminate.
  assert (X : opened d1 = true /\ forall r len l k, streams d1 r = Some (Direct len l k) -> exists len' k', streams d r = Some (Direct len' l k')).
  { clear H IH. destruct x as [v|q|q j v|q ts|q b|q]; cbn [step] in S0.
    - injection S0 as <-. split; [exact O|eauto].
    - unfold create_stream in S0. destruct (at_ref (objects d) q) as [v|]; [|discriminate]. destruct (streams d q) eqn:S1; [injection S0 as <-; split; [exact O|eauto]|].
      destruct v as [| | | | | | | |e0]; try discriminate. rewrite O in S0. injection S0 as <-. split; [exact O|]. cbn [with_stream streams]. intros r len l k. rewrite put_stream_at. destruct (ref_eqb q r); [discriminate|eauto].
    - unfold set_entry in S0. destruct (at_ref (objects d) q) as [[| | | | | | | |e0]|]; try discriminate. injection S0 as <-. split; [exact O|eauto].
    - unfold open_output in S0. destruct (at_ref (objects d) q); [|discriminate]. destruct (streams d q) as [[x fs|len0 l0 k0]|] eqn:S1; [| |discriminate]; destruct (is_open d q); try discriminate.
      + injection S0 as <-. split; [exact O|]. cbn [with_outputs with_stream streams]. intros r len l k. rewrite put_stream_at. destruct (ref_eqb q r); [discriminate|eauto].
      + destruct k0; [discriminate|]. unfold write_object in S0. destruct (finish_same (set_opened d)) as (E1 & _ & _ & _ & E5 & _). destruct (at_ref (objects (finish_last (set_opened d))) q) as [v|]; [|discriminate].
        rewrite E1 in S0. cbn [set_opened streams] in S0. rewrite S1 in S0. destruct (wflate o q); [discriminate|]. destruct (write (wfl o) v); try discriminate. injection S0 as <-. cbn [with_outputs set_last with_dev add_entry opened streams]. rewrite E1, E5. split; [reflexivity|eauto].
    - unfold put_bytes in S0. destruct (is_open d q); [|discriminate]. destruct (at_ref (objects d) q); [|discriminate]. destruct (streams d q) as [[x fs|len0 l0 k0]|] eqn:S1; [| |discriminate]; injection S0 as <-; (split; [exact O|]); cbn [with_stream with_dev streams]; intros r len l k; rewrite put_stream_at; destruct (ref_eqb q r) eqn:E; try discriminate; eauto.
      intros [= <- <- <-]. apply ref_eqb_iff in E. subst r. eauto.
    - unfold close_output in S0. destruct (at_ref (outputs d) q) as [ts|]; [|discriminate]. destruct (at_ref (objects d) q) as [[| | | | | | | |e0]|]; try discriminate. destruct (streams d q) as [[x fs|len0 l0 k0]|] eqn:S1; [| |discriminate].
      + injection S0 as <-. split; [exact O|]. cbn [with_stream with_outputs with_objects streams]. intros r len l k. rewrite put_stream_at. destruct (ref_eqb q r); [discriminate|eauto].
      + destruct (at_ref (objects d) l0); [|discriminate]. injection S0 as <-. split; [reflexivity|]. cbn [set_opened with_outputs with_objects streams]. eauto. }
  destruct X as [X1 X2]. destruct (IH d1 d' X1 H) as [Y1 Y2]. split; [exact Y1|]. intros r len l k Z0. destruct (Y2 r len l k Z0) as (a & b & Y). exact (X2 r a l b Y).
Qed.
