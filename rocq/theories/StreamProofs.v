(** Stream data: what is set is read *)
From Coq Require Import String.
From Verif Require Import Base TokModel WriteModel DictProofs TokProofs LexProofs ReadEq RealProofs ChainProofs ObjSpec ObjProofs ParseProofs ObjPropLemmas UtilModel FilterModel FilterSpec FilterProofs FilterPropLemmas OwnModel OwnProofs ListModel XrefModel XrefSpec XrefProofs XrefReadProofs XrefPropLemmas ParserModel ParserSpec ParserProofs ParserPropLemmas UpdateModel UpdateSpec UpdateProofs StreamModel StreamSpec.
Local Open Scope Z_scope.
Local Notation dict := (list (list Z * obj)) (only parsing).

(** ** Dictionaries *)
Lemma dict_find_resolve look k (d : dict) : dict_find look k d = match dict_get k d with Some o => resolve look o | None => None end.
Proof. unfold dict_find, get_key. destruct (dict_get k d) as [o|]; [destruct o|]; reflexivity. Qed.
Lemma dict_find_entry look k (d : dict) v : DictProofs.sorted d -> dict_find look k d = Some v <-> entry look k d v.
Proof.
  intros S0. rewrite dict_find_resolve. unfold entry. split.
  - destruct (dict_get k d) as [o|] eqn:G; [|discriminate]. intro R. exists o. split; [apply dict_get_in in G; [exact G|apply sorted_nodup, S0]|apply resolve_says, R].
  - intros (o & I & R). apply dict_get_in in I; [|apply sorted_nodup, S0]. rewrite I. apply resolve_says, R.
Qed.
Lemma find_key_find look (d : dict) k : find_key look d k = dict_find look k d.
Proof.
  rewrite dict_find_resolve. unfold find_key. induction d as [|[k' o] d IH]; [reflexivity|]. cbn [find dict_get fst].
  destruct (beq k k') eqn:E.
  - apply beq_eq in E. subst k'. rewrite beq_refl. reflexivity.
  - assert (beq k' k = false) as ->; [|exact IH]. apply beq_neq. apply beq_neq in E. congruence.
Qed.
Lemma filters_of look (d e : dict) : dict_find look (bs "Filter") d = dict_find look (bs "Filter") e -> create_filter_list look (ODict d) = create_filter_list look (ODict e).
Proof. intro H. unfold create_filter_list. rewrite !find_key_find, H. reflexivity. Qed.
Lemma set_filter_sorted ts (d : dict) : DictProofs.sorted d -> DictProofs.sorted (set_filter ts d).
Proof. intro H. destruct ts as [|t [|t2 ts]]; cbn [set_filter]; [apply erase_sorted|apply dict_add_sorted|apply dict_add_sorted]; exact H. Qed.
Lemma set_filter_other ts (d : dict) k : DictProofs.sorted d -> k <> bs "Filter" -> dict_get k (set_filter ts d) = dict_get k d.
Proof.
  intros H N. apply beq_neq in N.
  destruct ts as [|t [|t2 ts]]; cbn [set_filter]; [rewrite erase_get by exact H|rewrite dict_get_add by exact H|rewrite dict_get_add by exact H]; rewrite N; reflexivity.
Qed.
Lemma filter_array_names look ts : filter_array look (map (fun t => OName (filter_name t)) ts) = Ok ts.
Proof.
  induction ts as [|t ts IH]; [reflexivity|]. cbn [map filter_array resolve].
  change (filter_name t) with (std_filter t). rewrite std_names. cbn [bind]. rewrite IH. reflexivity.
Qed.
Lemma set_filter_declares look ts (d : dict) : DictProofs.sorted d -> create_filter_list look (ODict (set_filter ts d)) = Ok ts.
Proof.
  intro H. unfold create_filter_list. rewrite find_key_find, dict_find_resolve.
  destruct ts as [|t [|t2 ts]]; cbn [set_filter].
  - rewrite erase_get, beq_refl by exact H. reflexivity.
  - rewrite dict_get_add, beq_refl by exact H. cbn [resolve]. change (filter_name t) with (std_filter t). rewrite std_names. reflexivity.
  - rewrite dict_get_add, beq_refl by exact H. cbn [resolve]. apply filter_array_names.
Qed.
Lemma erase_absent {A} k (d : list (list Z * A)) : dict_get k d = None -> erase_key k d = d.
Proof.
  induction d as [|[k' v] d IH]; [reflexivity|]. cbn [dict_get erase_key]. destruct (beq k k') eqn:E; [discriminate|].
  assert (beq k' k = false) as ->; [apply beq_neq; apply beq_neq in E; congruence|]. intro H. rewrite IH by exact H. reflexivity.
Qed.

(** ** Filters *)
Lemma filters_there z ts : undoes (zdec z) (zenc z) -> Forall encodable ts ->
  exists ps, encoders z ts = (map fst ps, true) /\ Forall (fun p => undoes (snd p) (fst p)) ps /\
    Forall2 (fun t p => filter_decoder (zdec z) t = Some (snd p)) ts ps.
Proof.
  intros U H. induction H as [|t ts E _ IH]; [exists []; repeat split; constructor|].
  destruct IH as (ps & IE & IU & ID).
  assert (exists p, filter_encoder (zenc z) t = Some (fst p) /\ undoes (snd p) (fst p) /\ filter_decoder (zdec z) t = Some (snd p)) as (p & P1 & P2 & P3).
  { destruct E as [->|[->| ->]]; [exists (hex_enc, hex_dec)|exists (a85_enc, a85_dec)|exists (zenc z, zdec z)]; (split; [reflexivity|]; split; [|reflexivity]); cbn [fst snd];
      [apply hex_undoes|apply a85_undoes|exact U]. }
  exists (p :: ps). cbn [encoders map]. rewrite P1, IE. split; [reflexivity|]. split; constructor; assumption.
Qed.
Lemma decoders_there z look ts ps qs : Forall encodable ts -> Forall2 (fun t p => filter_decoder (zdec z) t = Some (snd p)) ts ps ->
  Forall2 (fun t q => t = FFlate -> q = None) ts qs -> decoders z look ts qs = Ok (map (@snd filt filt) ps).
Proof.
  intros E H. revert qs E. induction H as [|t p ts ps D _ IH]; intros qs E Q; [reflexivity|].
  inversion Q as [|? q ? qs' Q1 Q2]; subst. inversion E as [|? ? E1 E2]; subst. cbn [decoders map].
  assert (decoder z look t q = Ok (snd p)) as ->.
  { unfold decoder. rewrite D. destruct E1 as [->|[->| ->]]; try reflexivity. rewrite (Q1 eq_refl). reflexivity. }
  cbn [bind]. rewrite (IH qs' E2 Q2). reflexivity.
Qed.
Lemma no_media ts : Forall encodable ts -> strip_media ts = Ok (ts, []).
Proof.
  induction 1 as [|t ts E _ IH]; [reflexivity|]. cbn [strip_media].
  assert (is_media t = false) as -> by (destruct E as [->|[->| ->]]; reflexivity). rewrite IH. reflexivity.
Qed.
Lemma set_nth_len {A} (x : A) : forall l i, length (XrefModel.set_nth i x l) = length l.
Proof. induction l as [|a l IH]; intros [|i]; cbn [XrefModel.set_nth length]; try reflexivity. rewrite IH. reflexivity. Qed.
Lemma fill_parms_there look n : forall l i acc, (i + length l <= n)%nat -> length acc = n -> exists qs, fill_parms look i n l acc = Ok qs /\ length qs = n.
Proof.
  induction l as [|x l IH]; intros i acc L A; [exists acc; split; [reflexivity|exact A]|]. cbn [fill_parms length] in *.
  destruct (resolve look x) as [o|]; [|apply IH; [lia|exact A]]. destruct o; try (apply IH; [lia|exact A]).
  rewrite (proj2 (Nat.ltb_lt i n)) by lia. apply IH; [lia|]. rewrite set_nth_len. exact A.
Qed.
Lemma Forall2_any {A B} (R : A -> B -> Prop) l : forall m, length m = length l -> (forall a b, In a l -> R a b) -> Forall2 R l m.
Proof.
  induction l as [|a l IH]; intros [|b m] L H; try discriminate; [constructor|]. constructor; [apply H; left; reflexivity|].
  apply IH; [cbn in L; lia|]. intros x y I. apply H. right. exact I.
Qed.
Lemma Forall2_none {A B} (R : A -> option B -> Prop) l : (forall a, R a None) -> Forall2 R l (repeat None (length l)).
Proof. intro H. induction l; cbn [length repeat]; constructor; auto. Qed.
Lemma parms_there look (d : dict) ts : DictProofs.sorted d -> parms_unused look d ts -> ts <> [] ->
  exists qs, parms look d (length ts) = Ok qs /\ length qs = length ts /\ Forall2 (fun t q => t = FFlate -> q = None) ts qs.
Proof.
  intros S0 U N. destruct U as [U|U]; [contradiction|]. unfold parms.
  assert (X : forall q : list (option dict), length q = length ts -> ~ In FFlate ts -> Forall2 (fun t q => t = FFlate -> q = None) ts q).
  { intros q L NI. apply Forall2_any; [exact L|]. intros a b I E. subst a. contradiction. }
  assert (Y : exists qs : list (option dict), Ok (repeat None (length ts)) = Ok qs /\ length qs = length ts /\ Forall2 (fun t q => t = FFlate -> q = None) ts qs).
  { eexists. split; [reflexivity|]. split; [apply repeat_length|]. apply (Forall2_none (fun t q => t = FFlate -> q = None)). auto. }
  destruct (dict_find look (bs "DecodeParms") d) as [v|] eqn:E; [|exact Y].
  apply dict_find_entry in E; [|exact S0]. apply U in E. destruct E as [NI L]. destruct v; try exact Y.
  - destruct (fill_parms_there look (length ts) l 0 (repeat None (length ts)) (L l eq_refl) (repeat_length _ _)) as (qs & F & FL).
    exists qs. split; [exact F|]. split; [exact FL|]. apply X; [exact FL|exact NI].
  - eexists. split; [reflexivity|]. split; [apply repeat_length|]. apply X; [apply repeat_length|exact NI].
Qed.
Lemma open_there z look s ps : DictProofs.sorted (sdict s) -> Forall encodable (sfilters s) -> parms_unused look (sdict s) (sfilters s) ->
  Forall2 (fun t p => filter_decoder (zdec z) t = Some (snd p)) (sfilters s) ps ->
  open_stream z look false s = Ok (map (@snd filt filt) ps, [], []).
Proof.
  intros S0 E U D. unfold open_stream. cbn [orb]. destruct (sfilters s) as [|t ts] eqn:F.
  - inversion D; subst. reflexivity.
  - destruct (parms_there look (sdict s) (t :: ts) S0 U ltac:(discriminate)) as (qs & P & L & Q). rewrite P. cbn [bind].
    rewrite no_media by exact E. cbn [bind]. rewrite <- L, firstn_all.
    rewrite (decoders_there z look (t :: ts) ps qs E D Q). reflexivity.
Qed.

(** ** What is set is read *)
Lemma copy_reads fs text data : fs <> [] -> chain_gives (decode_stack fs) text data ->
  forall n, (length data + length text + 2 <= n)%nat -> copy_from n fs text = Ok data.
Proof.
  intros N G n L. unfold copy_from.
  destruct (decode_reads fs text data (repeat 4096%nat n) N G) as (o & e & R & _ & T & F).
  { clear. induction n; cbn [repeat]; constructor; [lia|exact IHn]. }
  specialize (F ltac:(rewrite repeat_length; exact L)). subst e. specialize (T eq_refl). subst o. rewrite R. destruct fs; [congruence|reflexivity].
Qed.
Lemma set_read z look ts blocks data s : undoes (zdec z) (zenc z) -> DictProofs.sorted (sdict s) -> Forall encodable ts -> bytes_ok data -> concat blocks = data ->
  parms_unused look (sdict s) ts ->
  exists s', set_data z ts blocks s = (Ok tt, s') /\ reads_as z look s' data /\ declared look s' /\ sfilters s' = ts /\
    (forall n, read_stream z look n true s' = Ok (sdata s')) /\
    (forall k, k <> bs "Filter" -> dict_get k (sdict s') = dict_get k (sdict s)) /\ DictProofs.sorted (sdict s') /\ bytes_ok (sdata s') /\
    (forall bl2, concat bl2 = data -> set_data z ts bl2 s = (Ok tt, s')).
Proof.
  intros U S0 E B C PU. destruct (filters_there z ts U E) as (ps & EN & PS & PD).
  destruct (chains_undo ps PS data B) as (text & BT & G1 & G2). destruct (G1 blocks C) as (w & W1 & W2).
  exists (mk_sobj (set_filter ts (sdict s)) text ts).
  assert (SB : forall bl2, concat bl2 = data -> set_data z ts bl2 s = (Ok tt, mk_sobj (set_filter ts (sdict s)) text ts)).
  { intros bl2 C2. destruct (G1 bl2 C2) as (w2 & X1 & X2). unfold set_data, encoded. rewrite EN, X1. cbn [bind]. rewrite X2. reflexivity. }
  split; [apply SB, C|]. cbn [sdict sdata sfilters]. split; [|split; [|split; [reflexivity|split; [|split; [|split; [|split]]]]]].
  - exists (length data + length text + 2)%nat. intros n L. unfold read_stream.
    rewrite (open_there z look (mk_sobj (set_filter ts (sdict s)) text ts) ps); cbn [sdict sfilters sdata]; try assumption; [| |].
    + cbn [bind]. destruct ps as [|p ps].
      * inversion PD; subst ts. cbn [map copy_from]. destruct (G2 [text] (app_nil_r _)) as (w3 & X & Y). cbn in X. apply ok_inj in X. subst w3. cbn in Y.
        rewrite app_nil_r in Y. congruence.
      * apply copy_reads; [discriminate|exact G2|exact L].
    + apply set_filter_sorted, S0.
    + destruct PU as [PU|PU]; [left; exact PU|right]. intros v EV. apply PU.
      apply dict_find_entry in EV; [|apply set_filter_sorted, S0]. apply dict_find_entry; [exact S0|].
      rewrite dict_find_resolve in *. rewrite set_filter_other in EV; [exact EV|exact S0|discriminate].
  - unfold declared. cbn [sdict sfilters]. apply set_filter_declares, S0.
  - intro n. unfold read_stream, open_stream. cbn [orb bind copy_from sdata]. reflexivity.
  - intros k N. apply set_filter_other; assumption.
  - apply set_filter_sorted, S0.
  - exact BT.
  - exact SB.
Qed.

Lemma append_read z look n ts blocks data old s : undoes (zdec z) (zenc z) -> DictProofs.sorted (sdict s) -> Forall encodable ts -> bytes_ok data -> bytes_ok old -> concat blocks = data ->
  parms_unused look (sdict s) ts -> read_stream z look n false s = Ok old ->
  exists s', append_data z look n ts blocks s = (Ok tt, s') /\ reads_as z look s' (old ++ data).
Proof.
  intros U S0 E B BO C PU R. unfold append_data. rewrite R.
  destruct (set_read z look ts (match old with [] => blocks | _ => old :: blocks end) (old ++ data) s U S0 E) as (s' & H1 & H2 & _); [| |exact PU|].
  - apply Forall_app. split; assumption.
  - destruct old; cbn [concat app]; [exact C|rewrite C; reflexivity].
  - exists s'. split; assumption.
Qed.

(** ** Copying and moving *)
Lemma dict_find_value look k (d : dict) v : no_chains look -> dict_find look k d = Some v -> resolve look v = Some v.
Proof.
  intros NC H. rewrite dict_find_resolve in H. destruct (dict_get k d) as [o|]; [|discriminate].
  assert (X : forall n g, v <> ORef n g).
  { intros n g ->. destruct o as [| | | | | |a b| |]; try (cbn [resolve] in H; discriminate H). cbn [resolve] in H. apply NC in H. exact (H n g eq_refl). }
  destruct v; try reflexivity. exfalso. exact (X _ _ eq_refl).
Qed.
Lemma take_sorted look k (a b : dict) : DictProofs.sorted b -> DictProofs.sorted (take_key look k a b).
Proof. intro H. unfold take_key. destruct (dict_find look k a); [apply dict_add_sorted|apply erase_sorted]; exact H. Qed.
Lemma take_other look k q (a b : dict) : DictProofs.sorted b -> q <> k -> dict_get q (take_key look k a b) = dict_get q b.
Proof.
  intros H N. apply beq_neq in N. unfold take_key. destruct (dict_find look k a); [rewrite dict_get_add by exact H|rewrite erase_get by exact H]; rewrite N; reflexivity.
Qed.
Lemma take_find look k (a b : dict) : no_chains look -> DictProofs.sorted b -> dict_find look k (take_key look k a b) = dict_find look k a.
Proof.
  intros NC H. rewrite dict_find_resolve. unfold take_key. destruct (dict_find look k a) as [v|] eqn:E.
  - rewrite dict_get_add, beq_refl by exact H. eapply dict_find_value; eassumption.
  - rewrite erase_get, beq_refl by exact H. reflexivity.
Qed.
Lemma find_same look k (a b : dict) : dict_get k a = dict_get k b -> dict_find look k a = dict_find look k b.
Proof. intro H. rewrite !dict_find_resolve, H. reflexivity. Qed.
Lemma read_same z look n raw s s' : sdata s = sdata s' -> sfilters s = sfilters s' -> dict_find look (bs "DecodeParms") (sdict s) = dict_find look (bs "DecodeParms") (sdict s') ->
  read_stream z look n raw s = read_stream z look n raw s'.
Proof. intros D F P. unfold read_stream, open_stream, parms. rewrite D, F, P. reflexivity. Qed.
Lemma copy_facts z look lhs rhs : no_chains look -> DictProofs.sorted (sdict lhs) ->
  (forall n raw, read_stream z look n raw (copy_stream look lhs rhs) = read_stream z look n raw rhs) /\
  (declared look rhs -> declared look (copy_stream look lhs rhs)) /\
  (forall k, k <> bs "Filter" -> k <> bs "DecodeParms" -> dict_get k (sdict (copy_stream look lhs rhs)) = dict_get k (sdict lhs)).
Proof.
  intros NC S0. unfold copy_stream. set (d1 := take_key look (bs "Filter") (sdict rhs) (sdict lhs)).
  assert (S1 : DictProofs.sorted d1) by (apply take_sorted, S0). split; [|split].
  - intros n raw. apply read_same; [reflexivity|reflexivity|]. cbn [sdict]. apply take_find; assumption.
  - unfold declared. cbn [sdict sfilters]. intro H. rewrite <- H. apply filters_of.
    rewrite (find_same look (bs "Filter") _ d1) by (apply take_other; [exact S1|discriminate]). apply take_find; assumption.
  - intros k N1 N2. cbn [sdict]. rewrite take_other by assumption. apply take_other; assumption.
Qed.
Lemma drop_find look k q (d : dict) : DictProofs.sorted d -> dict_find look q (drop_key look k d) = if beq q k then None else dict_find look q d.
Proof.
  intro H. unfold drop_key. destruct (dict_find look k d) eqn:E.
  - rewrite !dict_find_resolve, erase_get by exact H. destruct (beq q k); reflexivity.
  - destruct (beq q k) eqn:B; [|reflexivity]. apply beq_eq in B. subst q. exact E.
Qed.
Lemma drop_sorted look k (d : dict) : DictProofs.sorted d -> DictProofs.sorted (drop_key look k d).
Proof. intro H. unfold drop_key. destruct (dict_find look k d); [apply erase_sorted|]; exact H. Qed.
Lemma moved_from z look lhs rhs : DictProofs.sorted (sdict rhs) ->
  (forall n raw, read_stream z look n raw (snd (move_stream look lhs rhs)) = Ok []) /\ declared look (snd (move_stream look lhs rhs)).
Proof.
  intro S0. unfold move_stream. cbn [snd]. split.
  - intros n raw. unfold read_stream, open_stream. cbn [sfilters sdata]. destruct raw; reflexivity.
  - unfold declared, create_filter_list. cbn [sdict sfilters]. rewrite find_key_find, drop_find by (apply drop_sorted, S0).
    change (beq (bs "Filter") (bs "DecodeParms")) with false. cbn match. rewrite drop_find, beq_refl by exact S0. reflexivity.
Qed.

(** ** Unwrapping *)
Lemma strip_media_none ts : Forall (fun t => is_media t = false) ts -> strip_media ts = Ok (ts, []).
Proof. induction 1 as [|t ts H _ IH]; [reflexivity|]. cbn [strip_media]. rewrite H, IH. reflexivity. Qed.
Lemma unwrap_keeps z look n s data : DictProofs.sorted (sdict s) -> Forall (fun t => is_media t = false) (sfilters s) -> read_stream z look n false s = Ok data ->
  exists s', unwrap_stream z look n s = (Ok tt, s') /\ sfilters s' = [] /\ (forall m raw, read_stream z look m raw s' = Ok data) /\
    (declared look s -> declared look s') /\
    (forall k, k <> bs "Filter" -> k <> bs "DecodeParms" -> dict_get k (sdict s') = dict_get k (sdict s)).
Proof.
  intros S0 M R. unfold unwrap_stream. destruct (sfilters s) as [|t ts] eqn:F.
  { unfold read_stream, open_stream in R. rewrite F in R. cbn [orb bind copy_from] in R. apply ok_inj in R. subst data.
    exists s. split; [reflexivity|]. split; [exact F|]. split; [|auto]. intros m raw. unfold read_stream, open_stream. rewrite F, orb_true_r. reflexivity. }
  unfold read_stream in R. destruct (open_stream z look false s) as [[[fs media] ps]| | |] eqn:O; try discriminate R. cbn [bind] in R.
  assert (media = []) as ->.
  { unfold open_stream in O. rewrite F in O. cbn [orb] in O. apply bind_ok in O. destruct O as (qs & _ & O). rewrite strip_media_none in O by exact M.
    cbn [bind] in O. apply bind_ok in O. destruct O as (fs' & _ & O). apply ok_inj in O. congruence. }
  exists (mk_sobj (erase_key (bs "DecodeParms") (erase_key (bs "Filter") (sdict s))) data []). split; [rewrite R; destruct ts; reflexivity|]. split; [reflexivity|]. split; [|split].
  - intros m raw. unfold read_stream, open_stream. cbn [sfilters sdata]. rewrite orb_true_r. reflexivity.
  - intros _. unfold declared, create_filter_list. cbn [sdict sfilters]. rewrite find_key_find, dict_find_resolve.
    rewrite erase_get by (apply erase_sorted, S0). change (beq (bs "Filter") (bs "DecodeParms")) with false. cbn match.
    rewrite erase_get, beq_refl by exact S0. reflexivity.
  - intros k N1 N2. cbn [sdict]. apply beq_neq in N1, N2. rewrite erase_get, N2 by (apply erase_sorted, S0). rewrite erase_get, N1 by exact S0. reflexivity.
Qed.
Lemma unwrap_refused z look n s r s' : unwrap_stream z look n s = (r, s') -> r <> Ok tt -> s' = s.
Proof.
  unfold unwrap_stream. intros H N. assert (X : forall x : res unit, (x, s) = (r, s') -> s' = s) by (intros x E; congruence).
  destruct (sfilters s) as [|t ts]; [exact (X _ H)|].
  destruct (open_stream z look false s) as [[[fs media] ps]| | |]; try exact (X _ H).
  assert (Y : forall a, (Ok tt, a) = (r, s') -> s' = s) by (intros a E; injection E as <- _; contradiction).
  destruct ts; destruct media as [|m1 [|m2 media]]; try exact (Y _ H); destruct (copy_from n fs (sdata s)); try exact (X _ H); exact (Y _ H).
Qed.

(** ** Writing and loading *)
Lemma dict_back fl (d : dict) t k : flags_ok fl -> wf_obj default_params (ODict d) -> (S (inner (ODict d)) <= 256)%nat -> write fl (ODict d) = Ok t ->
  parse default_params (t ++ k) = Ok (Some (ODict d), mk_tst [] k).
Proof.
  intros Fl W D WT. pose proof W as W0. rewrite wf_dict_iff in W. destruct W as [Hsrt Hwp].
  destruct (write_dict fl d t Hsrt WT) as (x & Hx & ->).
  assert (exists ws, (ws = [] \/ exists c, ws = [c] /\ is_ws c = true) /\
      ((if wclean fl then [60; 60; 10] else [60; 60]) ++ x ++ [62; 62]) ++ k = 60 :: 60 :: ws ++ x ++ 62 :: 62 :: k) as (ws & Hws & Heq).
  { destruct (wclean fl).
    - exists [10]. split; [right; eexists; split; reflexivity|]. cbn [app]. rewrite <- app_assoc. reflexivity.
    - exists []. split; auto. cbn [app]. rewrite <- app_assoc. reflexivity. }
  rewrite Heq. set (inp := 60 :: 60 :: ws ++ x ++ 62 :: 62 :: k).
  assert (T : next_token 4095 (mk_tst [] inp) = Some ((TDLAng, [60; 60]), mk_tst [] (ws ++ x ++ 62 :: 62 :: k))) by reflexivity.
  assert (E : exists s1', reads 4095 s1' (x ++ 62 :: 62 :: k) /\ next_token 4095 (mk_tst [] (ws ++ x ++ 62 :: 62 :: k)) = next_token 4095 s1').
  { exact (reads_skip_opt default_params _ _ _ Hws (reads_0 _ _)). }
  destruct E as (s1' & Hs1' & Hn1).
  assert (IH' : Forall (fun p => wf_obj default_params (snd p) -> forall t, write fl (snd p) = Ok t -> reads_back default_params (snd p) t) (type_first d)).
  { apply Forall_forall. intros p _ Wp. apply write_reads_back; [exact buf20|exact Fl|exact Wp]. }
  assert (Hwp' : wf_pairs default_params (type_first d)).
  { apply Forall_forall. intros p Hp. unfold wf_pairs in Hwp. rewrite Forall_forall in Hwp. apply Hwp. apply type_first_in. exact Hp. }
  assert (HD' : Forall (fun p => (1 + Nat.max 1 (inner (snd p)) <= rmax default_params)%nat) (type_first d)).
  { apply Forall_forall. intros p Hp. pose proof (inner_dict default_params buf20 d 1 256 D) as A. rewrite Forall_forall in A. apply A. apply type_first_in. exact Hp. }
  destruct (back_pairs default_params fl buf20 Fl (type_first d) IH' x [] None 1%nat k s1' Hwp' Hx Hs1' HD') as (F & s' & HF & Hs'). subst s'.
  rewrite <- (parse_any_fuel default_params inp (3 * length inp + 3 + S (S F))) by lia.
  unfold read_next. change (rbuf default_params) with 4095%nat. rewrite T.
  replace (3 * length inp + 3 + S (S F))%nat with (S (S (3 * length inp + 3 + F))) by lia.
  rewrite read_variant_S. change (Nat.ltb (rmax default_params) 1) with false. cbn match. cbn [determine bind]. rewrite read_data_S.
  assert (R : forall fuel, read_dict default_params fuel 1 [] None (mk_tst [] (ws ++ x ++ 62 :: 62 :: k)) = read_dict default_params fuel 1 [] None s1').
  { intros [|fuel]; [reflexivity|]. rewrite !read_dict_S. change (rbuf default_params) with 4095%nat. rewrite Hn1. reflexivity. }
  rewrite R, HF by lia. cbn [bind]. rewrite dfold_sorted_eq by exact Hsrt. reflexivity.
Qed.
Lemma load_stream_text fl tight r (d : dict) data text file off k look ts : flags_ok fl -> (tight = true -> wclean fl = false) ->
  wf_obj default_params (ODict d) -> (S (inner (ODict d)) <= 256)%nat -> 0 <= fst r < 2 ^ 32 -> 0 <= snd r < 2 ^ 16 ->
  object_text fl tight r d data text -> skipn (Z.to_nat off) file = text ++ k -> create_filter_list look (ODict d) = Ok ts ->
  load_stream look file off = Ok (r, mk_sobj d data ts).
Proof.
  destruct r as [n g]. intros F TG W D N G (t & WT & LN & ->) S0 CF. cbn [fst snd] in *. unfold load_stream, load_parts. rewrite S0.
  set (tail := data ++ [10] ++ bs "endstream" ++ [10] ++ bs "endobj" ++ [10] ++ k).
  set (body := (if tight then [] else [10]) ++ t ++ [10] ++ bs "stream" ++ [10] ++ tail).
  match goal with |- context [next_number 4095 (mk_tst [] ?X)] => replace X with (dec n ++ 32 :: dec g ++ 32 :: bs "obj" ++ body) end.
  2:{ unfold body, tail. change (bs " obj") with (32 :: bs "obj"). change (bs " ") with [32]. repeat first [rewrite <- app_assoc | progress cbn [app]]. reflexivity. }
  destruct (ParserPropLemmas.dec_tok n (32 :: dec g ++ 32 :: bs "obj" ++ body) ltac:(lia) ltac:(left; easy)) as [T1 V1].
  destruct (ParserPropLemmas.dec_tok g (32 :: bs "obj" ++ body) ltac:(lia) ltac:(left; easy)) as [T2 V2].
  rewrite (next_number_in 4095 TLit (dec n) _ _ n T1 V1).
  rewrite (next_number_in 4095 TLit (dec g) _ (32 :: bs "obj" ++ body) g); [|rewrite tok_ws by easy; exact T2|exact V2].
  unfold next_token at 1. cbn [tq tin]. rewrite tok_ws by easy. rewrite tok_lit; [|discriminate|repeat constructor| |cbn; lia].
  2:{ unfold body. destruct tight; [|left; easy]. cbn [app]. eapply stops_text; [exact buf20|exact W|exact WT|]. destruct F as [F | F]; [rewrite (TG eq_refl) in F; discriminate|exact F]. }
  cbn [snd]. rewrite beq_refl. cbn [tin].
  assert (PB : parse default_params body = Ok (Some (ODict d), mk_tst [] ([10] ++ bs "stream" ++ [10] ++ tail))).
  { unfold body. destruct tight; cbn [app]; [|apply parse_ws; [easy|]]; apply (dict_back fl); assumption. }
  unfold parse, read_next in PB. change (rbuf default_params) with 4095%nat in PB.
  destruct (next_token 4095 (mk_tst [] body)) as [[t' s4]|] eqn:NB; [|discriminate].
  destruct (beq (snd t') (bs "endobj")) eqn:EO.
  - exfalso. apply beq_eq in EO. destruct t' as [ty x]. cbn [snd] in EO. subst x. unfold next_token in NB. cbn [tq tin] in NB.
    destruct (tok 4095 body) as [[tk r0]|] eqn:TK; [|discriminate]. injection NB as -> <-.
    apply word_literal in TK; [|cbn; lia]. subst ty. replace (3 * length body + 3)%nat with (S (S (3 * length body + 1))) in PB by lia. discriminate PB.
  - rewrite PB. cbn [bind].
    unfold next_token at 1. cbn [tq tin]. cbn [app]. rewrite tok_ws by easy. change (115 :: 116 :: 114 :: 101 :: 97 :: 109 :: 10 :: tail) with (bs "stream" ++ 10 :: tail).
    rewrite tok_lit; [|discriminate|repeat constructor|left; easy|cbn; lia].
    cbn [snd]. change (beq (bs "stream") (bs "endobj")) with false. cbn match. rewrite beq_refl. cbn [bind tin].
    unfold load_data. rewrite dict_find_resolve, LN. cbn [resolve data_start]. change ((10 =? 32) || (10 =? 9)) with false. cbn match. change (10 =? 13) with false. change (10 =? 10) with true. cbn match. cbn [bind].
    rewrite CF. cbn [bind]. rewrite (proj2 (Z.ltb_ge _ 0)) by lia. rewrite Nat2Z.id. unfold tail. rewrite firstn_app, Nat.sub_diag, firstn_all. cbn [firstn]. rewrite app_nil_r.
    replace (u32 n) with n by (unfold u32; symmetry; apply Z.mod_small; exact N). replace (u16 g) with g by (unfold u16; symmetry; apply Z.mod_small; exact G). reflexivity.
Qed.

Lemma wf_dict_add k v (d : dict) : wf_obj default_params (ODict d) -> name_ok 4095 k -> wf_obj default_params v -> wf_obj default_params (ODict (dict_add k v d)).
Proof.
  intros W K V. apply wf_dict_iff in W. apply wf_dict_iff. destruct W as [S0 W]. split; [apply dict_add_sorted, S0|].
  unfold wf_pairs in *. rewrite Forall_forall in *. intros p I. apply dict_add_in in I. destruct I as [->|I]; [split; assumption|apply W, I].
Qed.
Lemma inner_dict_le (d : dict) m : (1 <= m)%nat -> (forall k v, In (k, v) d -> (inner v <= m)%nat) -> (inner (ODict d) <= m)%nat.
Proof.
  intros M. cbn [inner]. induction d as [|[k v] d IH]; intro H; [lia|].
  specialize (IH (fun k' v' I => H k' v' (or_intror I))). specialize (H k v (or_introl eq_refl)). lia.
Qed.
Lemma inner_dict_add k v (d : dict) m : (1 <= m)%nat -> (inner (ODict d) <= m)%nat -> (inner v <= m)%nat -> (inner (ODict (dict_add k v d)) <= m)%nat.
Proof.
  intros M H V. apply inner_dict_le; [exact M|]. intros k' v' I. apply dict_add_in in I. destruct I as [E|I]; [injection E as _ ->; exact V|].
  pose proof (inner_dict default_params buf20 d 0 m H) as A. rewrite Forall_forall in A. specialize (A _ I). cbn [snd] in A. lia.
Qed.
Lemma length_name : name_ok 4095 (bs "Length").
Proof. apply name_ok_b. vm_compute. reflexivity. Qed.
(** What a stream object looks like once /Length is set *)
Definition with_length (s : sobj) : sobj := mk_sobj (dict_add (bs "Length") (ONum (Z.of_nat (length (sdata s)))) (sdict s)) (sdata s) (sfilters s).
Lemma writes_text z look fl tight flate n r s s1 : wf_obj default_params (ODict (sdict s1)) -> Z.of_nat (length (sdata s1)) < 2 ^ 63 -> compress_step z look flate n s = (Ok tt, s1) ->
  exists text, write_stream z look fl tight flate n r s = (Ok text, with_length s1) /\ object_text fl tight r (sdict (with_length s1)) (sdata s1) text.
Proof.
  intros W L C. unfold write_stream. rewrite C. fold (with_length s1).
  assert (WL : wf_obj default_params (ODict (sdict (with_length s1)))).
  { apply wf_dict_add; [exact W|exact length_name|]. cbn [wf_obj]. unfold int64_ok. lia. }
  destruct (write_total default_params fl _ WL) as [t WT]. rewrite WT. cbn [bind]. eexists. split; [reflexivity|].
  exists t. split; [exact WT|]. split.
  - cbn [with_length sdict]. apply wf_dict_iff in W. rewrite dict_get_add, beq_refl by apply W. reflexivity.
  - unfold stream_text. change (bs " ") with [32]. cbn [with_length sdata]. rewrite <- !app_assoc. reflexivity.
Qed.
Lemma with_length_filters look s : DictProofs.sorted (sdict s) -> create_filter_list look (ODict (sdict (with_length s))) = create_filter_list look (ODict (sdict s)).
Proof. intro S0. apply filters_of, find_same. cbn [with_length sdict]. rewrite dict_get_add by exact S0. reflexivity. Qed.
Lemma write_load z look fl tight flate n r s file off k text s' : options_ok fl tight -> wf_obj default_params (ODict (sdict s)) -> (S (inner (ODict (sdict s))) <= 256)%nat ->
  0 <= fst r < 2 ^ 32 -> 0 <= snd r < 2 ^ 16 -> Z.of_nat (length (sdata s)) < 2 ^ 63 -> declared look s -> sfilters s <> [] \/ flate = false ->
  write_stream z look fl tight flate n r s = (Ok text, s') -> skipn (Z.to_nat off) file = text ++ k ->
  s' = with_length s /\ load_stream look file off = Ok (r, s').
Proof.
  intros [F TG] W D R1 R2 L DC ND WS SK.
  assert (C : compress_step z look flate n s = (Ok tt, s)).
  { unfold compress_step. destruct ND as [ND| ->]; [|reflexivity]. destruct (sfilters s); [contradiction|]. rewrite andb_false_r. reflexivity. }
  destruct (writes_text z look fl tight flate n r s s W L C) as (text' & W' & OT). rewrite W' in WS. injection WS as <- <-. split; [reflexivity|].
  apply (load_stream_text fl tight r _ _ text' file off k look); try assumption.
  - apply wf_dict_add; [exact W|exact length_name|]. cbn [wf_obj]. unfold int64_ok. lia.
  - change (S (inner (ODict (sdict (with_length s)))) <= 256)%nat. apply le_n_S. apply (inner_dict_add _ _ _ 255); [lia|lia|cbn; lia].
  - change (create_filter_list look (ODict (sdict (with_length s))) = Ok (sfilters s)). rewrite with_length_filters by apply (proj1 (wf_dict_iff _ _) W). exact DC.
Qed.
(** The temporary stream takes the data of the object. *)
Lemma write_loses z look fl tight n r s : undoes (zdec z) (zenc z) -> wf_obj default_params (ODict (sdict s)) -> bytes_ok (sdata s) -> sfilters s = [] ->
  exists text s', write_stream z look fl tight true n r s = (Ok text, s') /\ sdata s' = [] /\ object_text fl tight r (sdict s') [] text.
Proof.
  intros U W B F.
  assert (R : read_stream z look n false s = Ok (sdata s)) by (unfold read_stream, open_stream; rewrite F, orb_true_r; reflexivity).
  destruct (set_read z look [FFlate] [sdata s] (sdata s) (mk_sobj [] [] []) U sorted_nil) as (tmp & ST & _).
  { constructor; [right; right; reflexivity|constructor]. } { exact B. } { apply app_nil_r. } { right. intros v (o & [] & _). }
  set (s1 := snd (move_stream look tmp s)).
  assert (C : compress_step z look true n s = (Ok tt, s1)) by (unfold compress_step; rewrite F; cbn [andb]; rewrite R, ST; reflexivity).
  assert (W1 : wf_obj default_params (ODict (sdict s1))).
  { assert (X : forall k (d : dict), wf_obj default_params (ODict d) -> wf_obj default_params (ODict (drop_key look k d))).
    { intros k d Wd. unfold drop_key. destruct (dict_find look k d); [|exact Wd]. apply wf_dict_iff in Wd. apply wf_dict_iff. destruct Wd as [S0 Wd].
      split; [apply erase_sorted, S0|]. unfold wf_pairs in *. rewrite Forall_forall in *. intros p I. apply Wd. eapply erase_in, I. }
    unfold s1, move_stream. cbn [snd sdict]. apply X, X, W. }
  destruct (writes_text z look fl tight true n r s s1 W1 ltac:(cbn; lia) C) as (text & WS & OT).
  exists text, (with_length s1). split; [exact WS|]. split; [reflexivity|exact OT].
Qed.

(** ** Object streams *)
Lemma det_value n k : no_reference k -> exists s, determine_number 4095 true n (mk_tst [] k) = (DVal (ONum n), s).
Proof.
  intro NR. unfold determine_number. cbn [negb]. unfold next_token at 1. cbn [tq tin].
  destruct (tok 4095 k) as [[[ty t2] r]|] eqn:T; [|eexists; reflexivity].
  destruct ty; try (eexists; reflexivity). destruct (from_chars_int t2) as [g|] eqn:E; [|eexists; reflexivity].
  unfold next_token. cbn [tq tin]. destruct (tok 4095 r) as [[[ty3 t3] r3]|] eqn:T3; [|eexists; reflexivity].
  rewrite not_R; [eexists; reflexivity|]. intros [-> ->]. exact (NR _ _ _ _ T E T3).
Qed.
Lemma lead_skipped fl t : tok 4095 (lead fl ++ t) = tok 4095 t.
Proof. exact (tok_lead default_params fl t). Qed.
Lemma number_value fl n k : - 2 ^ 63 <= n < 2 ^ 63 -> stops k -> no_reference k -> exists s, parse default_params ((lead fl ++ dec_signed n) ++ k) = Ok (Some (ONum n), s).
Proof.
  intros N S0 NR.
  assert (W : int64_ok n = true) by (unfold int64_ok; apply andb_true_iff; split; [apply Z.leb_le|apply Z.ltb_lt]; lia).
  destruct (dec_signed_regular n) as [Hr Hne]. pose proof (dec_signed_len n W) as Hl.
  assert (T : tok 4095 ((lead fl ++ dec_signed n) ++ k) = Some ((TLit, dec_signed n), k)).
  { rewrite <- app_assoc, lead_skipped. apply tok_lit; auto. lia. }
  destruct (det_value n k NR) as [s DV]. exists s. set (inp := (lead fl ++ dec_signed n) ++ k) in *.
  rewrite <- (parse_any_fuel default_params _ (S (S (3 * length inp + 3)))) by lia.
  unfold read_next, next_token. cbn [tq tin]. change (rbuf default_params) with 4095%nat. rewrite T. rewrite read_variant_S.
  rewrite (proj2 (Nat.ltb_ge (rmax default_params) 1)) by exact max1. rewrite (determine_num default_params) by exact W.
  change (rbuf default_params) with 4095%nat. change (rrefs default_params) with true. rewrite DV. reflexivity.
Qed.
Lemma placed_parses data pos o : placed data pos o -> exists s, parse default_params (skipn (Z.to_nat pos) data) = Ok (Some o, s).
Proof.
  intros (fl & t & k & Hf & Hwf & Hd & Hw & _ & -> & Hst & Hsf). destruct o as [|b|n| | | | | |].
  3:{ cbn [write] in Hw. apply ok_inj in Hw. subst t. cbn [wf_obj] in Hwf. unfold int64_ok in Hwf. apply number_value; [lia|exact (Hst I)|exact (Hsf I)]. }
  all: match goal with |- exists s, parse _ _ = Ok (Some ?o, s) =>
         destruct (objects_round_trip fl o k Hf Hwf) as (t' & s0 & W' & PS & _); [split; [exact Hst|intros []]|exact Hd|];
         rewrite Hw in W'; apply ok_inj in W'; subst t'; exists s0; exact PS end.
Qed.
Lemma members_read data first want : 0 <= first -> forall ms ws k, (ws = [] \/ ws = [32]) ->
  Forall (fun m => 0 <= fst (fst m) < 2 ^ 32 /\ 0 <= snd (fst m) /\ first + snd (fst m) < 2 ^ 63 - 1 /\ placed data (first + snd (fst m)) (snd m)) ms ->
  read_members (length ms) data first want (mk_tst [] (ws ++ table ms ++ k)) =
  Ok (map (fun m => ((fst (fst m), 0), snd m)) (filter (fun m => existsb (Z.eqb (fst (fst m))) want) ms)).
Proof.
  intro F0. induction ms as [|[[n off] o] ms IH]; intros ws k WS H; [reflexivity|].
  inversion H as [|? ? H1 H2]; subst. cbn [fst snd] in H1. destruct H1 as (N & O & B & PL). cbn [length read_members table].
  assert (TW : forall x, tok 4095 (ws ++ x) = tok 4095 x) by (intro x; destruct WS as [->| ->]; [reflexivity|cbn [app]; apply tok_ws; reflexivity]).
  set (rest := table ms ++ k).
  replace ((dec n ++ [32] ++ dec off ++ [32] ++ table ms) ++ k) with (dec n ++ 32 :: dec off ++ 32 :: rest).
  2:{ unfold rest. repeat first [rewrite <- app_assoc | progress cbn [app]]. reflexivity. }
  destruct (ParserPropLemmas.dec_tok n (32 :: dec off ++ 32 :: rest) ltac:(lia) ltac:(left; reflexivity)) as [T1 V1].
  destruct (ParserPropLemmas.dec_tok off (32 :: rest) ltac:(lia) ltac:(left; reflexivity)) as [T2 V2].
  rewrite (next_number_in 4095 TLit (dec n) _ (32 :: dec off ++ 32 :: rest) n); [|rewrite TW; exact T1|exact V1].
  rewrite (next_number_in 4095 TLit (dec off) _ (32 :: rest) off); [|rewrite tok_ws by reflexivity; exact T2|exact V2].
  replace (int64_ok (2 ^ 63 - 1 - off)) with true by (symmetry; unfold int64_ok; lia). cbn [negb].
  rewrite (proj2 (Z.leb_gt _ _)) by lia. replace (int64_ok (first + off)) with true by (symmetry; unfold int64_ok; lia). cbn [negb].
  rewrite (proj2 (Z.ltb_ge (first + off) 0)) by lia.
  assert (L : first + off <= Z.of_nat (length data)) by (destruct PL as (? & ? & ? & _ & _ & _ & _ & X & _); lia).
  rewrite (proj2 (Z.ltb_ge (Z.of_nat (length data)) (first + off))) by lia.
  destruct (placed_parses _ _ _ PL) as [s PS]. unfold parse in PS. rewrite PS.
  specialize (IH [32] k (or_intror eq_refl) H2). cbn [app] in IH. fold rest in IH. rewrite IH. cbn [bind filter map fst snd].
  replace (u32 n) with n by (unfold u32; symmetry; apply Z.mod_small; exact N). destruct (existsb (Z.eqb n) want); reflexivity.
Qed.

(** The lines of a layout *)
Definition no_R (k : list Z) : Prop := forall r3, tok 4095 k <> Some ((TLit, [82]), r3).
Lemma text_no_R fl o t k : wf_obj default_params o -> write fl o = Ok t -> (needs_stop o -> stops k) -> no_R k ->
  no_R (t ++ k) /\ no_reference (t ++ k).
Proof.
  intros Hwf Hw Hst NK. destruct (tok_text default_params fl buf20 o t k Hwf Hw Hst) as (ty & x & r & T & NR & _).
  change (rbuf default_params) with 4095%nat in T. split.
  { intros r3 E. rewrite T in E. injection E as -> -> _. apply NR. split; reflexivity. }
  intros t2 r2 g r3 E Eg. rewrite T in E. injection E as -> -> <-. clear NR.
  assert (KEEP : forall y, t = lead fl ++ y -> y <> [] -> Forall (fun c => is_regular c = true) y -> (length y <= 4095)%nat -> stops k -> tok 4095 r <> Some ((TLit, [82]), r3)).
  { intros y -> Y1 Y2 Y3 Y4. rewrite <- app_assoc, lead_skipped in T. rewrite tok_lit in T; [|exact Y1|exact Y2|exact Y4|exact Y3]. injection T as _ <-. apply NK. }
  destruct o as [|b|n|m k0|n|h x|n g'|l|d]; cbn [write wf_obj needs_stop] in *.
  - apply ok_inj in Hw. apply (KEEP (bs "null")); [congruence|discriminate|repeat constructor|apply Nat.leb_le; vm_compute; reflexivity|exact (Hst I)].
  - apply ok_inj in Hw. apply (KEEP (if b then bs "true" else bs "false")); [congruence|destruct b; discriminate|destruct b; repeat constructor|apply Nat.leb_le; destruct b; vm_compute; reflexivity|exact (Hst I)].
  - apply ok_inj in Hw. destruct (dec_signed_regular n) as [Hr Hne]. pose proof (dec_signed_len n Hwf) as Hl.
    apply (KEEP (dec_signed n)); [congruence|exact Hne|exact Hr|lia|exact (Hst I)].
  - apply ok_inj in Hw. destruct Hwf as [Hc Hl]. destruct (real_text_regular (m <? 0) (micro m k0) (micro_nonneg m k0)) as (R1 & R2 & R3).
    rewrite <- real_text_ftext in R1, R2, R3. apply (KEEP (real_text m k0)); [congruence|assumption|assumption|exact Hl|exact (Hst I)].
  - unfold write_name in Hw. destruct (escape_name n); try discriminate. cbn [bind] in Hw. apply ok_inj in Hw; subst t. cbn [app] in T.
    rewrite (tok_delim1 _ 47 TSlash) in T by reflexivity. discriminate T.
  - apply ok_inj in Hw; subst t. destruct h; unfold write_string in T; rewrite <- !app_assoc in T; cbn [app] in T.
    + unfold tok in T. cbn [tok_from] in T. change (is_ws 60) with false in T. cbn match in T. change (60 =? 37) with false in T. cbn match in T.
      change ((60 =? 60) || (60 =? 62)) with true in T. cbn match in T.
      destruct (flat_map hex_byte x ++ 62 :: k) as [|d r0] eqn:E; [destruct (flat_map hex_byte x); discriminate E|]. destruct (d =? 60); discriminate T.
    + rewrite (tok_delim1 _ 40 TLParen) in T by reflexivity. discriminate T.
  - apply ok_inj in Hw; subst t. destruct Hwf as (Hn & Hg & HR).
    assert (In_ : int64_ok n = true) by (unfold int64_ok; lia). assert (Ig : int64_ok g' = true) by (unfold int64_ok; lia).
    destruct (dec_signed_regular n) as [Hr Hne]. pose proof (dec_signed_len n In_) as Hl.
    destruct (dec_signed_regular g') as [Gr Gne]. pose proof (dec_signed_len g' Ig) as Gl. pose proof (dec_signed_kind g') as Kg.
    rewrite (dec_num_nonneg default_params buf20) in Hr, Hne, Hl by lia. rewrite (dec_num_nonneg default_params buf20) in Gr, Gne, Gl, Kg by lia.
    unfold write_ref in T. rewrite <- !app_assoc in T. cbn [app] in T. rewrite lead_skipped in T.
    rewrite tok_lit in T; [|exact Hne|exact Hr|left; reflexivity|lia]. injection T as _ <-.
    rewrite tok_ws by reflexivity. rewrite tok_lit; [|exact Gne|exact Gr|left; reflexivity|lia]. intro E. injection E as E _. rewrite E in Kg. discriminate Kg.
  - change (write fl (OArr l) = Ok t) in Hw. rewrite write_arr in Hw.
    destruct (arr_text fl 1 l) as [x| | |] eqn:E; cbn [bind] in Hw; try discriminate.
    apply ok_inj in Hw; subst t.
    assert (exists y, ((if wclean fl then [91; 32] else [91]) ++ x ++ [93]) ++ k = 91 :: y) as [y Y]
      by (destruct (wclean fl); cbn [app]; eauto).
    rewrite Y, (tok_delim1 _ 91 TLSq) in T by reflexivity. discriminate T.
  - destruct (write_dict fl d t) as (x & _ & ->); [tauto|exact Hw|].
    assert (exists y, ((if wclean fl then [60; 60; 10] else [60; 60]) ++ x ++ [62; 62]) ++ k = 60 :: 60 :: y) as [y Y]
      by (destruct (wclean fl); cbn [app]; eauto).
    rewrite Y in T. discriminate T.
Qed.
Lemma no_R_nl k : no_R k -> no_R (10 :: k).
Proof. intros H r3. rewrite tok_ws by reflexivity. apply H. Qed.
Lemma no_reference_nl k : no_reference k -> no_reference (10 :: k).
Proof. intros H t2 r g r3 E. rewrite tok_ws in E by reflexivity. exact (H t2 r g r3 E). Qed.
Lemma layout_no_R fl : forall ms off l b, layout fl off ms = Ok (l, b) -> Forall (fun m => wf_obj default_params (snd m)) ms -> no_R b /\ no_reference b.
Proof.
  induction ms as [|[n o] ms IH]; intros off l b H W; cbn [layout] in H.
  - apply ok_inj in H. injection H as <- <-. split; [intros r3 E; discriminate E|intros t2 r g r3 E; discriminate E].
  - inversion W as [|? ? W1 W2]; subst. cbn [snd] in W1. apply bind_ok in H. destruct H as (t & Ht & H). apply bind_ok in H. destruct H as ([l2 b2] & H2 & H).
    apply ok_inj in H. injection H as <- <-. destruct (IH _ _ _ H2 W2) as [I1 _].
    apply (text_no_R fl o t (10 :: b2)); [exact W1|exact Ht|intros _; left; reflexivity|apply no_R_nl, I1].
Qed.
Lemma layout_placed fl data first : flags_ok fl -> forall ms off l b pre, layout fl off ms = Ok (l, b) ->
  Forall (fun m => wf_obj default_params (snd m) /\ (S (inner (snd m)) <= 256)%nat) ms -> data = pre ++ b -> Z.of_nat (length pre) = first + off -> 0 <= first -> 0 <= off ->
  map (fun m => (fst (fst m), snd m)) l = ms /\
  Forall (fun m => 0 <= snd (fst m) /\ first + snd (fst m) <= Z.of_nat (length data) /\ placed data (first + snd (fst m)) (snd m)) l.
Proof.
  intros Hf. induction ms as [|[n o] ms IH]; intros off l b pre H W D P F0 O0; cbn [layout] in H.
  - apply ok_inj in H. injection H as <- <-. split; [reflexivity|constructor].
  - inversion W as [|? ? [W1 W1'] W2]; subst. cbn [snd] in W1, W1'. apply bind_ok in H. destruct H as (t & Ht & H). apply bind_ok in H. destruct H as ([l2 b2] & H2 & H).
    apply ok_inj in H. injection H as <- <-.
    destruct (IH _ _ _ (pre ++ t ++ [10]) H2 W2) as [I1 I2].
    { rewrite <- !app_assoc. reflexivity. } { rewrite !app_length. cbn [length]. lia. } { exact F0. } { lia. }
    cbn [map fst snd]. rewrite I1. split; [reflexivity|]. constructor; [|exact I2]. cbn [fst snd].
    assert (L : first + off <= Z.of_nat (length (pre ++ t ++ [10] ++ b2))) by (rewrite app_length; lia).
    split; [exact O0|]. split; [exact L|].
    exists fl, t, (10 :: b2). split; [exact Hf|]. split; [exact W1|]. split; [exact W1'|]. split; [exact Ht|]. split; [split; [lia|exact L]|]. split.
    + rewrite <- P, Nat2Z.id, skipn_app, skipn_all, Nat.sub_diag. reflexivity.
    + split; [intros _; left; reflexivity|]. intros _. apply no_reference_nl.
      apply (layout_no_R fl ms _ l2 b2 H2). eapply Forall_impl; [|exact W2]. intros m X. apply X.
Qed.
Lemma layout_total fl : forall ms off, Forall (fun m => wf_obj default_params (snd m)) ms -> exists l b, layout fl off ms = Ok (l, b).
Proof.
  induction ms as [|[n o] ms IH]; intros off W; cbn [layout]; [eexists; eexists; reflexivity|]. inversion W as [|? ? W1 W2]; subst.
  destruct (write_total default_params fl o W1) as [t ->]. cbn [bind]. destruct (IH (off + Z.of_nat (length t) + 1) W2) as (l & b & ->). eexists; eexists; reflexivity.
Qed.
Lemma object_stream_members look (d : dict) data first ms k want : dict_find look (bs "N") d = Some (ONum (Z.of_nat (length ms))) -> dict_find look (bs "First") d = Some (ONum first) ->
  data = table ms ++ k -> 0 <= first ->
  Forall (fun m => 0 <= fst (fst m) < 2 ^ 32 /\ 0 <= snd (fst m) /\ first + snd (fst m) < 2 ^ 63 - 1 /\ placed data (first + snd (fst m)) (snd m)) ms ->
  object_stream look d data want = Ok (map (fun m => ((fst (fst m), 0), snd m)) (filter (fun m => existsb (Z.eqb (fst (fst m))) want) ms)).
Proof.
  intros HN HF D F0 H. unfold object_stream, parm. rewrite HN, HF. cbn [bind]. rewrite Nat2Z.id.
  pose proof (members_read data first want F0 ms [] k (or_introl eq_refl) H) as M. cbn [app] in M. rewrite <- D in M. exact M.
Qed.
