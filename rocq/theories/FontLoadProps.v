(** C158, C159: the fonts of dictionaries *)
From Coq Require Import String QArith.
From Verif Require Import Base TokModel OwnModel ChainProofs CidModel DiffModel FontLoadModel FontLoadSpec FontLoadProofs.
Local Open Scope Z_scope.
Local Notation dict := (list (list Z * obj)) (only parsing).

(** ** A document for the examples: object 1 is a descriptor *)
Definition descriptor : dict := [(bs "FontBBox", OArr [ONum (-10); ONum (-200); OReal 9996 1; ONum 900]); (bs "FontName", OName (bs "Own")); (bs "MissingWidth", ONum 500)].
Definition plain_env : env := mk_env (fun r => if fst r =? 1 then Some (ODict descriptor) else if fst r =? 2 then Some (ONum 250) else None) (fun _ => false)
  (fun n => if beq n (bs "Helvetica") then Some 5 else None) (fun _ => false) (fun _ => Err EInvalidStream) (fun _ _ => Err ENoObject).
Definition font_dict (sub : list Z) (more : dict) : dict := (bs "Subtype", OName sub) :: (bs "Type", OName (bs "Font")) :: more.
Definition arial : dict := font_dict (bs "TrueType") [(bs "BaseFont", OName (bs "Arial")); (bs "Encoding", OName (bs "WinAnsiEncoding")); (bs "FontDescriptor", ORef 1 0); (bs "Widths", OArr [ONum 278; OReal 5005 1])].

(** ** C158 *)
(** The widths of a font are those of its dictionary in units of glyph space *)
Theorem C158_widths : forall e font l m s a ws, try_create e font = Ok (Some l) -> lo_metrics l = inr m -> entry (look e) (bs "Subtype") font (OName s) -> s <> bs "Type0" ->
  glyph_unit (look e) s font a -> entry (look e) (bs "Widths") font (OArr ws) -> Forall2 (fun w x => exists q, num x q /\ (w == q * a)%Q) (me_widths m) ws.
Proof.
  intros e font l m s a ws E M S N U W. destruct (loaded_simple _ _ _ _ _ E M S N) as (k & K & SM). destruct (metrics_parts _ _ _ _ _ SM) as (k' & KK & _ & MX & WD & _).
  unfold widths in WD. rewrite (entry_find _ _ _ _ W) in WD. cbn [as_array bind] in WD. apply scaled_all in WD.
  assert (A : cell (me_matrix m) 0 = a).
  { assert (O : k <> FKType3 -> cell (me_matrix m) 0 = (1 # 1000)%Q).
    { intros KN. assert (k' <> FKType3) by tauto. destruct k'; cbn [matrix] in MX; try (apply ok_inj in MX; rewrite <- MX; reflexivity). congruence. }
    destruct U as [NT|T WO|x r q T EN NU].
    - apply O. destruct (kind_cases _ _ K) as [[-> ->] | [[-> ->] | [-> ->]]]; congruence.
    - subst s. injection K as <-. rewrite (proj2 KK eq_refl) in MX. cbn [matrix] in MX. rewrite (find_without _ _ _ WO) in MX. apply ok_inj in MX. rewrite <- MX. reflexivity.
    - subst s. injection K as <-. rewrite (proj2 KK eq_refl) in MX. cbn [matrix] in MX. rewrite (entry_find _ _ _ _ EN) in MX. cbn [as_array bind read_cells at_idx nth_error] in MX. rewrite (num_real _ _ NU) in MX. cbn [bind] in MX.
      apply bind_ok in MX. destruct MX as (q' & _ & MX). apply ok_inj in MX. rewrite <- MX. reflexivity. }
  rewrite A in WD. exact WD.
Qed.
Print Assumptions C158_widths.
(** The name is that of the font, or else that of the descriptor *)
Theorem C158_name : forall e font l m s d n, try_create e font = Ok (Some l) -> lo_metrics l = inr m -> entry (look e) (bs "Subtype") font (OName s) -> s <> bs "Type0" ->
  entry (look e) (bs "FontDescriptor") font (ODict d) ->
  (n <> [] -> entry (look e) (bs "BaseFont") font (OName n) -> me_name m = n) /\
  (without (look e) (bs "BaseFont") font -> entry (look e) (bs "FontName") d (OName n) -> me_name m = n).
Proof.
  intros e font l m s d n E M S N D. destruct (loaded_simple _ _ _ _ _ E M S N) as (k & K & SM). destruct (metrics_parts _ _ _ _ _ SM) as (k' & _ & _ & _ & _ & n0 & N0 & P). rewrite (entry_find _ _ _ _ D) in P.
  destruct P as (d' & DD & NM & _). injection DD as <-. unfold find_as in N0. split.
  - intros NE B. rewrite (entry_find _ _ _ _ B) in N0. apply ok_inj in N0. subst n0. destruct n as [|c n]; [congruence|]. apply ok_inj in NM. auto.
  - intros B F. rewrite (find_without _ _ _ B) in N0. apply ok_inj in N0. subst n0. cbn [name_of] in NM. unfold find_as in NM. rewrite (entry_find _ _ _ _ F) in NM. apply ok_inj in NM. auto.
Qed.
Print Assumptions C158_name.
(** Missing: boxes with numbers that are not integers, which are rounded, and those of Type 3 fonts, see [C158_box_refuted] *)
Theorem C158_box_partial : forall e font l m s d x0 y0 x1 y1, try_create e font = Ok (Some l) -> lo_metrics l = inr m -> entry (look e) (bs "Subtype") font (OName s) -> s <> bs "Type0" ->
  entry (look e) (bs "FontDescriptor") font (ODict d) -> entry (look e) (bs "FontBBox") d (OArr [ONum x0; ONum y0; ONum x1; ONum y1]) ->
  me_box m = map (fun z => inject_Z z * (1 # 1000))%Q [x0; y0; x1; y1].
Proof.
  intros e font l m s d x0 y0 x1 y1 E M S N D B. destruct (loaded_simple _ _ _ _ _ E M S N) as (k & K & SM). destruct (metrics_parts _ _ _ _ _ SM) as (k' & _ & _ & _ & _ & n0 & N0 & P). rewrite (entry_find _ _ _ _ D) in P.
  destruct P as (d' & DD & _ & BX & _). injection DD as <-. rewrite (entry_find _ _ _ _ B) in BX. cbn [box as_array bind at_idx nth_error lenient] in BX. apply ok_inj in BX. rewrite <- BX. reflexivity.
Qed.
Print Assumptions C158_box_partial.
(** False: the box of a Type 3 font whose unit of glyph space is a unit of text space is in thousandths all the same, while its widths are not *)
Theorem C158_box_refuted : exists font l m, try_create plain_env font = Ok (Some l) /\ lo_metrics l = inr m /\ glyph_unit (look plain_env) (bs "Type3") font 1 /\
  entry (look plain_env) (bs "FontBBox") font (OArr [ONum 0; ONum 0; ONum 1; ONum 2]) /\ entry (look plain_env) (bs "Widths") font (OArr [ONum 1]) /\
  me_widths m = [1 * 1]%Q /\ me_box m = [0 * (1 # 1000); 0 * (1 # 1000); 1 * (1 # 1000); 2 * (1 # 1000)]%Q.
Proof.
  exists (font_dict (bs "Type3") [(bs "Encoding", OName (bs "WinAnsiEncoding")); (bs "FontBBox", OArr [ONum 0; ONum 0; ONum 1; ONum 2]); (bs "FontMatrix", OArr [ONum 1; ONum 0; ONum 0; ONum 1; ONum 0; ONum 0]); (bs "Widths", OArr [ONum 1])]).
  eexists. eexists. split; [reflexivity|]. split; [reflexivity|]. split; [|split; [|split; [|split; reflexivity]]]; [|constructor 1; [reflexivity|discriminate]|constructor 1; [reflexivity|discriminate]].
  eapply UnitMatrix; [reflexivity|constructor 1; [reflexivity|discriminate]|constructor].
Qed.
Print Assumptions C158_box_refuted.
(** False: the width of glyphs without one, which is in the units of the widths, is a thousand times as wide *)
Theorem C158_default_refuted : forall e font l m s d x q, try_create e font = Ok (Some l) -> lo_metrics l = inr m -> entry (look e) (bs "Subtype") font (OName s) -> s <> bs "Type0" ->
  entry (look e) (bs "FontDescriptor") font (ODict d) -> entry (look e) (bs "MissingWidth") d x -> num x q -> (me_default m == 1000 * (q * (1 # 1000)))%Q.
Proof.
  intros e font l m s d x q E M S N D B U. destruct (loaded_simple _ _ _ _ _ E M S N) as (k & K & SM). destruct (metrics_parts _ _ _ _ _ SM) as (k' & _ & _ & _ & _ & n0 & N0 & P). rewrite (entry_find _ _ _ _ D) in P.
  destruct P as (d' & DD & _ & _ & W). injection DD as <-. unfold find_as in W. rewrite (entry_find _ _ _ _ B), (num_real _ _ U) in W. apply ok_inj in W. rewrite <- W. ring.
Qed.
Print Assumptions C158_default_refuted.
(** False: no font is made if one of the widths is behind a reference *)
Theorem C158_indirect_refuted : exists font, (forall ws, try_create plain_env (font_dict (bs "TrueType") [(bs "Encoding", OName (bs "WinAnsiEncoding")); (bs "FontDescriptor", ORef 1 0); (bs "Widths", OArr ws)]) =
    try_create plain_env (font ws)) /\ look plain_env (2, 0) = Some (ONum 250) /\ (exists l, try_create plain_env (font [ONum 250]) = Ok (Some l)) /\ try_create plain_env (font [ORef 2 0]) = Err EInvalidDataType.
Proof. eexists. split; [intros ws; reflexivity|]. split; [reflexivity|]. split; [eexists|]; reflexivity. Qed.
Print Assumptions C158_indirect_refuted.
Example C158_case : exists m, try_create plain_env arial = Ok (Some (mk_loaded (inr m) MWin None)) /\ me_name m = bs "Arial" /\ map Qred (me_widths m) = [139 # 500; 1001 # 2000]%Q /\
  map Qred (me_box m) = [-1 # 100; -1 # 5; 1; 9 # 10]%Q /\ Qred (me_default m) = 500%Q.
Proof. eexists. split; [reflexivity|]. repeat split. Qed.

(** ** C159 *)
(** A font with an encoding that is known by its name has it *)
Theorem C159_named : forall e font l n x, try_create e font = Ok (Some l) -> entry (look e) (bs "Encoding") font (OName n) -> named n x -> lo_encoding l = x.
Proof.
  intros e font l n x E EN NA. apply loaded_encoding in E. unfold create_encoding in E. cbv zeta in E. destruct (stream_entry _ _ _ _ EN) as (b & F). rewrite F in E. rewrite (named_map _ _ _ _ _ NA) in E. cbn [bind] in E.
  apply bind_ok in E. destruct E as (t & _ & E). cbn [bind] in E. apply bind_ok in E. destruct E as (? & _ & E). apply bind_ok in E. destruct E as (? & _ & E). apply ok_inj in E. injection E as <- _. reflexivity.
Qed.
Print Assumptions C159_named.
(** No simple font is refused silently if its encoding is known by its name *)
Theorem C159_refused_partial : forall e font s n x, s = bs "Type1" \/ s = bs "Type3" \/ s = bs "TrueType" -> entry (look e) (bs "Subtype") font (OName s) ->
  entry (look e) (bs "Encoding") font (OName n) -> named n x -> try_create e font <> Ok None.
Proof.
  intros e font s n x S EN E NA. destruct (stream_entry _ _ _ _ E) as (b & F).
  assert (W : forall m, with_encoding e font m <> Ok None).
  { intros m H. unfold with_encoding in H. apply bind_ok in H. destruct H as (r & C & H). destruct r as [[a t]|]; [discriminate|]. unfold create_encoding in C. cbv zeta in C. rewrite F, (named_map _ _ _ _ _ NA) in C. cbn [bind] in C.
    apply bind_ok in C. destruct C as (t & _ & C). apply bind_ok in C. destruct C as (? & _ & C). apply bind_ok in C. destruct C as (? & _ & C). discriminate. }
  intros T. unfold try_create in T. destruct (dict_find (look e) (bs "Type") font) as [t|]; [|discriminate]. apply bind_ok in T. destruct T as (t' & _ & T). destruct (negb _); [discriminate|].
  rewrite (entry_find _ _ _ _ EN) in T. cbn [as_name bind] in T.
  assert (G : forall k desc, (do m <- simple_metrics e k font desc; with_encoding e font (inr m)) <> Ok None) by (intros k desc H; apply bind_ok in H; destruct H as (m & _ & H); exact (W _ H)).
  destruct S as [->|[->| ->]]; [change (beq (bs "Type1") (bs "Type0")) with false in T; change (kind_named (bs "Type1")) with (Some FKType1) in T
    |change (beq (bs "Type3") (bs "Type0")) with false in T; change (kind_named (bs "Type3")) with (Some FKType3) in T
    |change (beq (bs "TrueType") (bs "Type0")) with false in T; change (kind_named (bs "TrueType")) with (Some FKTrueType) in T]; cbv iota beta in T; [|exact (G _ _ T)|exact (G _ _ T)].
  destruct (dict_find (look e) (bs "FontDescriptor") font) as [o|]; [exact (G _ _ T)|]. apply bind_ok in T. destruct T as (q & _ & T). destruct q as [k|]; [exact (W _ T)|discriminate].
Qed.
Print Assumptions C159_refused_partial.
(** Missing: differences, see DiffModel.v, and the dictionaries of the refutations below *)
Theorem C159_safe_partial : forall e font, (forall x, cmap e x <> UB) -> (forall d x, cid_metrics e d x <> UB) -> no_differences e font -> described (look e) font -> descended (look e) font -> try_create e font <> UB.
Proof. exact create_safe. Qed.
Print Assumptions C159_safe_partial.
(** False: a TrueType font without a descriptor is a null pointer *)
Theorem C159_descriptor_refuted : forall e font n, entry (look e) (bs "Type") font (OName (bs "Font")) -> entry (look e) (bs "Subtype") font (OName (bs "TrueType")) ->
  entry (look e) (bs "BaseFont") font (OName n) -> without (look e) (bs "FontDescriptor") font -> try_create e font = UB.
Proof.
  intros e font n T S B D. unfold try_create. rewrite (entry_find _ _ _ _ T), (entry_find _ _ _ _ S). cbn [as_name bind]. rewrite beq_refl. cbn [negb]. change (beq (bs "TrueType") (bs "Type0")) with false.
  change (kind_named (bs "TrueType")) with (Some FKTrueType). cbv iota. rewrite (find_without _ _ _ D). unfold simple_metrics, find_as. rewrite (entry_find _ _ _ _ B). reflexivity.
Qed.
Print Assumptions C159_descriptor_refuted.
(** False: so is a descendant that is not there *)
Theorem C159_descendant_refuted : forall e font n g r, entry (look e) (bs "Type") font (OName (bs "Font")) -> entry (look e) (bs "Subtype") font (OName (bs "Type0")) ->
  entry (look e) (bs "DescendantFonts") font (OArr (ORef n g :: r)) -> look e (n, g) = None -> try_create e font = UB.
Proof.
  intros e font n g r T S D L. unfold try_create. rewrite (entry_find _ _ _ _ T), (entry_find _ _ _ _ S). cbn [as_name bind]. rewrite !beq_refl. cbn [negb]. rewrite (entry_find _ _ _ _ D). cbn [as_array bind]. rewrite L. reflexivity.
Qed.
Print Assumptions C159_descendant_refuted.
(** False: so is the name of a stretch that is a string, as some writers have it and as the code means to read it *)
Theorem C159_stretch_refuted : exists font, try_create plain_env (font (OName (bs "Condensed"))) <> UB /\ try_create plain_env (font (OStr false (bs "Condensed"))) = UB /\
  forall o, entry (look plain_env) (bs "FontDescriptor") (font o) (ODict [(bs "FontStretch", o)]).
Proof.
  exists (fun o => font_dict (bs "TrueType") [(bs "Encoding", OName (bs "WinAnsiEncoding")); (bs "FontDescriptor", ODict [(bs "FontStretch", o)])]).
  split; [vm_compute; discriminate|]. split; [vm_compute; reflexivity|]. intros o. constructor 1; [reflexivity|discriminate].
Qed.
Print Assumptions C159_stretch_refuted.
(** False: a font is refused if its encoding is /StandardEncoding, and a multiple master font always *)
Theorem C159_standard_refuted : exists font, try_create plain_env (font (bs "StandardEncoding")) = Ok None /\ (exists l, try_create plain_env (font (bs "WinAnsiEncoding")) = Ok (Some l)) /\
  forall n, entry (look plain_env) (bs "Encoding") (font n) (OName n).
Proof.
  exists (fun n => font_dict (bs "Type1") [(bs "BaseFont", OName (bs "Own")); (bs "Encoding", OName n); (bs "FontDescriptor", ORef 1 0)]).
  split; [vm_compute; reflexivity|]. split; [eexists; reflexivity|]. intros n. constructor 1; [reflexivity|discriminate].
Qed.
Print Assumptions C159_standard_refuted.
Theorem C159_master_refuted : forall e font, entry (look e) (bs "Type") font (OName (bs "Font")) -> entry (look e) (bs "Subtype") font (OName (bs "MMType1")) -> try_create e font = Ok None.
Proof. intros e font T S. unfold try_create. rewrite (entry_find _ _ _ _ T), (entry_find _ _ _ _ S). cbn [as_name bind]. rewrite beq_refl. reflexivity. Qed.
Print Assumptions C159_master_refuted.
Example C159_case : try_create plain_env (font_dict (bs "Type1") [(bs "BaseFont", OName (bs "Helvetica"))]) = Ok (Some (mk_loaded (inl 5) (MStd 5) None)) /\
  try_create plain_env (font_dict (bs "Type1") [(bs "BaseFont", OName (bs "Own"))]) = Err ENoObject /\ try_create plain_env (font_dict (bs "TrueType") [(bs "BaseFont", OName (bs "Arial"))]) = UB /\
  described (look plain_env) arial /\ descended (look plain_env) arial /\ no_differences plain_env arial.
Proof.
  split; [reflexivity|]. split; [reflexivity|]. split; [reflexivity|]. split; [split|split].
  - intros d h s D. apply entry_find in D. vm_compute in D. injection D as <-. intros F. apply entry_find in F. vm_compute in F. discriminate.
  - intros _. exists (ODict descriptor). econstructor 2; reflexivity.
  - intros x r D. apply entry_find in D. vm_compute in D. discriminate.
  - intros k d [-> | ->] D; apply entry_find in D; vm_compute in D; discriminate.
Qed.
