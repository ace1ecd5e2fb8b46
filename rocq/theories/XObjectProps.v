(** XObjects and extended graphics states *)
From Coq Require Import String QArith Lia.
From Verif Require Import Base TokModel WriteModel OwnModel ContentsModel RectModel LinkModel LinkSpec LinkProofs AnnotModel AnnotSpec AnnotProofs AnnotPropLemmas BoxModel BoxSpec BoxProofs ConformProofs ChainProofs XObjectModel XObjectSpec.
Local Open Scope Z_scope.
Local Notation dict := (list (list Z * obj)) (only parsing).

Lemma find_entry h d k o : entry_is h d k o -> dict_find h k d = Some o.
Proof. intros (e & G & V). unfold dict_find, get_key. rewrite G. destruct V as [o N | n g o L]; [|exact L]. destruct o; try reflexivity. destruct (N n g eq_refl). Qed.
Lemma find_absent h d k : absent d k -> dict_find h k d = None.
Proof. unfold absent, dict_find, get_key. intros ->. reflexivity. Qed.
Lemma entry_found h d k o : (forall n g, o <> ORef n g) -> dict_find h k d = Some o -> entry_is h d k o.
Proof.
  unfold dict_find, get_key, entry_is. intros N. destruct (dict_get k d) as [e|]; [|discriminate].
  intros F. exists e. split; [reflexivity|]. destruct e; try (injection F as <-; constructor; congruence). constructor. exact F.
Qed.
Lemma own_name k s : kind_of_name s = Some k <-> s = kind_name k.
Proof.
  split; [|intros ->; destruct k; reflexivity]. unfold kind_of_name.
  destruct (beq s (bs "Form")) eqn:A; [apply beq_eq in A; intros E; injection E as <-; exact A|].
  destruct (beq s (bs "Image")) eqn:B; [apply beq_eq in B; intros E; injection E as <-; exact B|].
  destruct (beq s (bs "PS")) eqn:C; [apply beq_eq in C; intros E; injection E as <-; exact C|]. discriminate.
Qed.
Lemma kind_eq a b : same_kind a b = true <-> a = b.
Proof. destruct a, b; cbn; split; congruence. Qed.

(** ** C150 *)
(** What is created is an XObject of its kind and of the kind that was asked for. *)
Theorem C150_sound look want n o x : try_create look want n o = Ok (Some x) -> exists d, o = ODict d /\ xobject_is look (kind_name (x_kind x)) d /\ (forall k, want = Some k -> x_kind x = k).
Proof.
  unfold try_create. destruct o as [| | | | | | | |d]; try discriminate. intros E. exists d. split; [reflexivity|]. unfold get_key in E.
  destruct (dict_get (bs "Type") d) as [t|] eqn:T; [|discriminate]. destruct t as [| | | |s| | | |]; try discriminate. destruct (beq s (bs "XObject")) eqn:B; [|discriminate]. apply beq_eq in B. subst s. cbn [negb] in E.
  destruct (kind_of look d) as [k|] eqn:K; [|discriminate].
  destruct (match want with Some q => negb (same_kind k q) | None => false end) eqn:W; [discriminate|].
  assert (XK : x_kind x = k).
  { destruct k.
    - unfold open_form in E. apply bind_ok in E. destruct E as (y & E & EQ). injection EQ as <-. apply bind_ok in E. destruct E as (r & _ & E). destruct (dict_find look (bs "Resources") d) as [v|]; [destruct v; try discriminate|]; injection E as <-; reflexivity.
    - unfold open_image in E. apply bind_ok in E. destruct E as (y & E & EQ). injection EQ as <-. apply bind_ok in E. destruct E as (w & _ & E). apply bind_ok in E. destruct E as (h & _ & E). injection E as <-. reflexivity.
    - injection E as <-. reflexivity. }
  rewrite XK. split.
  - constructor.
    + right. exists (OName (bs "XObject")). split; [exact T|]. constructor. congruence.
    + destruct k; cbn; auto.
    + unfold kind_of in K. destruct (dict_find look (bs "Subtype") d) as [v|] eqn:F; [|discriminate]. destruct v as [| | | |s| | | |]; try discriminate. apply own_name in K. subst s. apply entry_found; [congruence|exact F].
  - intros q ->. apply Bool.negb_false_iff, kind_eq in W. exact W.
Qed.
Print Assumptions C150_sound.
(** XObjects whose type is given, and directly, are created with the size or the rectangle of their entries, if those are as they shall be.
    Missing: XObjects without type or with an indirect one, and errors, see below. *)
Theorem C150_image_partial look want n d w h : dict_get (bs "Type") d = Some (OName (bs "XObject")) -> entry_is look d (bs "Subtype") (OName (bs "Image")) -> (want = None \/ want = Some XImage) ->
  entry_is look d (bs "Width") (ONum w) -> entry_is look d (bs "Height") (ONum h) -> 0 <= w < 2 ^ 32 -> 0 <= h < 2 ^ 32 ->
  exists x, try_create look want n (ODict d) = Ok (Some x) /\ x_kind x = XImage /\ x_w x = w /\ x_h x = h.
Proof.
  intros T S W EW EH RW RH. unfold try_create, get_key. rewrite T. cbn [beq]. unfold kind_of. rewrite (find_entry _ _ _ _ S). rewrite beq_refl. cbn [negb]. change (kind_of_name (bs "Image")) with (Some XImage). cbv iota beta.
  replace (match want with Some q => negb (same_kind XImage q) | None => false end) with false by (destruct W as [-> | ->]; reflexivity).
  unfold open_image, size_entry. rewrite (find_entry _ _ _ _ EW), (find_entry _ _ _ _ EH). cbn [bind]. eexists. split; [reflexivity|]. cbn [x_kind x_w x_h]. unfold u32. rewrite !Z.mod_small by lia. auto.
Qed.
Print Assumptions C150_image_partial.
Theorem C150_form_partial look want n d l a b c e : dict_get (bs "Type") d = Some (OName (bs "XObject")) -> entry_is look d (bs "Subtype") (OName (bs "Form")) -> (want = None \/ want = Some XForm) ->
  entry_is look d (bs "BBox") (OArr l) -> rectangle l a b c e -> (absent d (bs "Resources") \/ exists r, entry_is look d (bs "Resources") (ODict r)) ->
  exists x, try_create look want n (ODict d) = Ok (Some x) /\ x_kind x = XForm /\ spans (rl (x_rect x)) (rb (x_rect x)) (rw (x_rect x)) (rh (x_rect x)) a b c e.
Proof.
  intros T S W EB R ER. unfold try_create, get_key. rewrite T. unfold kind_of. rewrite (find_entry _ _ _ _ S). rewrite beq_refl. cbn [negb]. change (kind_of_name (bs "Form")) with (Some XForm). cbv iota beta.
  replace (match want with Some q => negb (same_kind XForm q) | None => false end) with false by (destruct W as [-> | ->]; reflexivity).
  destruct (box_read l a b c e R) as (q & BA & SP). unfold open_form, get_key. pose proof (find_entry _ _ _ _ EB) as FB. destruct EB as (eb & GB & _). rewrite GB, FB, BA. cbn [bind].
  assert (FR : dict_find look (bs "Resources") d = None \/ exists r, dict_find look (bs "Resources") d = Some (ODict r)). { destruct ER as [A | (r & A)]; [left; apply find_absent; exact A|right; exists r; apply find_entry; exact A]. }
  destruct FR as [-> | (r & ->)]; cbn [bind]; eexists; (split; [reflexivity|]); cbn [x_kind x_rect]; auto.
Qed.
Print Assumptions C150_form_partial.
(** New forms are found again. *)
Theorem C150_new_form look want n r : (want = None \/ want = Some XForm) -> exists x, try_create look want n (ODict (new_form r)) = Ok (Some x) /\ x_kind x = XForm /\
  spans (rl (x_rect x)) (rb (x_rect x)) (rw (x_rect x)) (rh (x_rect x)) (val (dl r)) (val (db r)) (val (dl r) + val (dw r)) (val (db r) + val (dh r)).
Proof.
  intros W. apply (C150_form_partial look want n (new_form r) (rect_array r)).
  - reflexivity.
  - eexists. split; [reflexivity|]. constructor. discriminate.
  - exact W.
  - eexists. split; [reflexivity|]. constructor. discriminate.
  - apply rect_array_is.
  - left. reflexivity.
Qed.
Print Assumptions C150_new_form.
(** XObjects without a type, which is optional, and with an indirect one are not taken for XObjects. *)
Theorem C150_untyped_refuted look want n d s : absent d (bs "Type") -> List.In s [bs "Form"; bs "Image"; bs "PS"] -> entry_is look d (bs "Subtype") (OName s) -> xobject_is look s d /\ try_create look want n (ODict d) = Ok None.
Proof. intros A I E. split; [constructor; auto|]. unfold try_create, get_key. rewrite A. reflexivity. Qed.
Print Assumptions C150_untyped_refuted.
Theorem C150_indirect_refuted look want n d s a b : dict_get (bs "Type") d = Some (ORef a b) -> look (a, b) = Some (OName (bs "XObject")) -> List.In s [bs "Form"; bs "Image"; bs "PS"] -> entry_is look d (bs "Subtype") (OName s) ->
  xobject_is look s d /\ try_create look want n (ODict d) = Ok None.
Proof. intros A L I E. split; [constructor; auto; right; exists (ORef a b); split; [exact A|constructor; exact L]|]. unfold try_create, get_key. rewrite A. reflexivity. Qed.
Print Assumptions C150_indirect_refuted.
(** The attempt raises errors: for images without size, such as every new one, and for forms with a broken entry. *)
Theorem C150_new_image_refuted look n : xobject_is look (bs "Image") new_image /\ try_create look None n (ODict new_image) = Err ENoObject.
Proof.
  split; [|reflexivity]. constructor; [right|cbn; auto|]; eexists; (split; [reflexivity|]); constructor; discriminate.
Qed.
Print Assumptions C150_new_image_refuted.
Theorem C150_broken_refuted look want n d v : dict_get (bs "Type") d = Some (OName (bs "XObject")) -> entry_is look d (bs "Subtype") (OName (bs "Form")) -> (want = None \/ want = Some XForm) ->
  entry_is look d (bs "BBox") v -> (forall l, v <> OArr l) -> try_create look want n (ODict d) = Err EInvalidDataType.
Proof.
  intros T S W EB NA. unfold try_create, get_key. rewrite T. unfold kind_of. rewrite (find_entry _ _ _ _ S). rewrite beq_refl. cbn [negb]. change (kind_of_name (bs "Form")) with (Some XForm). cbv iota beta.
  replace (match want with Some q => negb (same_kind XForm q) | None => false end) with false by (destruct W as [-> | ->]; reflexivity).
  unfold open_form, get_key. pose proof (find_entry _ _ _ _ EB) as FB. destruct EB as (eb & GB & _). rewrite GB, FB. destruct v as [| | | | | | |l|]; try reflexivity. destruct (NA l eq_refl).
Qed.
Print Assumptions C150_broken_refuted.
Example C150_case : let d := [(bs "Height", ORef 7 0); (bs "Subtype", ORef 5 0); (bs "Type", OName (bs "XObject")); (bs "Width", ONum 20)] in
  let look := fun r : Z * Z => if fst r =? 7 then Some (ONum 10) else if fst r =? 5 then Some (OName (bs "Image")) else None in
  try_create look None 12 (ODict d) = Ok (Some (mk_xobject XImage (bs "XOb12") no_rect 20 10)) /\ try_create look (Some XForm) 12 (ODict d) = Ok None
  /\ try_create look None 12 (ODict (erase_key (bs "Type") d)) = Ok None /\ try_create look None 12 (ODict (erase_key (bs "Width") d)) = Err ENoObject.
Proof. vm_compute. auto. Qed.

(** ** C151 *)
Lemma reals_are l qs : Forall2 number_is l qs -> exists rs, reals l = Ok rs /\ Forall2 Qeq rs qs.
Proof.
  intros F. induction F as [|o q l qs N F (rs & E & Q)]; [exists []; split; [reflexivity|constructor]|].
  destruct (get_real_is o q N) as (a & G & V). cbn [reals]. rewrite G, E. cbn [bind]. eexists. split; [reflexivity|]. constructor; [exact V|exact Q].
Qed.
(** The matrix is that of the entry, if it is direct and so are the numbers, and the identity without entry.
    Missing: indirect objects, see below. *)
Theorem C151_get_partial h d m : matrix_is h d m -> (forall l, dict_get (bs "Matrix") d = Some (OArr l) -> forall n g, ~ List.In (ORef n g) l) -> (forall n g, dict_get (bs "Matrix") d <> Some (ORef n g)) ->
  exists q, get_matrix d = Ok q /\ same_numbers q m.
Proof.
  intros M ND NR. unfold get_matrix, get_key. destruct M as [A | l vs qs E V N L].
  - rewrite A. eexists. split; [reflexivity|]. unfold same_numbers. cbn [map]. repeat constructor; reflexivity.
  - destruct E as (e & G & VE). assert (e = OArr l) as -> by (inversion VE; subst; [reflexivity|exfalso; eapply NR; exact G]). rewrite G.
    assert (EQ : vs = l).
    { specialize (ND l G). clear -V ND. induction V as [|a b l vs VA V IH]; [reflexivity|]. f_equal; [|apply IH; intros n g I; apply (ND n g); right; exact I].
      destruct VA as [a _ | n g a _]; [reflexivity|]. destruct (ND n g). left. reflexivity. }
    subst vs. assert (LL : length l = 6%nat) by (rewrite <- L; clear -N; induction N; cbn [length]; [reflexivity|f_equal; assumption]). rewrite LL. cbn [Nat.ltb Nat.leb]. rewrite firstn_all2 by lia.
    destruct (reals_are l qs N) as (rs & R & Q). exists rs. split; [exact R|exact Q].
Qed.
Print Assumptions C151_get_partial.
(** What is set is got, and is the matrix of the dictionary. *)
Theorem C151_set h d a b c e f g : let d' := set_matrix (a, b, c, e, f, g) d in matrix_is h d' (map val [a; b; c; e; f; g]) /\ (exists q, get_matrix d' = Ok q /\ same_numbers q (map val [a; b; c; e; f; g])) /\ forall k, k <> bs "Matrix" -> dict_get k d' = dict_get k d.
Proof.
  cbv zeta. unfold set_matrix. assert (F : Forall2 number_is (map real [a; b; c; e; f; g]) (map val [a; b; c; e; f; g])) by (cbn [map]; repeat constructor; reflexivity). split; [|split].
  - apply (MSome h _ (map real [a; b; c; e; f; g]) (map real [a; b; c; e; f; g])).
    + eexists. split; [apply get_add_same|]. constructor. discriminate.
    + cbn [map]. repeat constructor; discriminate.
    + exact F.
    + reflexivity.
  - unfold get_matrix, get_key. rewrite get_add_same. destruct (reals_are _ _ F) as (rs & R & Q). exists rs. split; [exact R|exact Q].
  - intros k K. apply get_add_other. apply beq_neq. exact K.
Qed.
Print Assumptions C151_set.
(** New forms have the identity. *)
Theorem C151_new h r : matrix_is h (new_form r) (map inject_Z [1; 0; 0; 1; 0; 0]) /\ get_matrix (new_form r) = Ok (map dq [(1, 0%nat); (0, 0%nat); (0, 0%nat); (1, 0%nat); (0, 0%nat); (0, 0%nat)]).
Proof.
  split; [|reflexivity]. apply (MSome h _ (map ONum [1; 0; 0; 1; 0; 0]) (map ONum [1; 0; 0; 1; 0; 0])).
  - eexists. split; [reflexivity|]. constructor. discriminate.
  - cbn [map]. repeat constructor; discriminate.
  - cbn [map]. repeat constructor.
  - reflexivity.
Qed.
Print Assumptions C151_new.
(** Matrices, or numbers in them, that are indirect objects raise an error. *)
Theorem C151_indirect_refuted d n g : dict_get (bs "Matrix") d = Some (ORef n g) -> get_matrix d = Err EInvalidDataType.
Proof. intros G. unfold get_matrix, get_key. rewrite G. reflexivity. Qed.
Print Assumptions C151_indirect_refuted.
Lemma reals_ref l n g : List.In (ORef n g) l -> reals l = Err EInvalidDataType.
Proof.
  induction l as [|o l IH]; [intros []|]. intros [-> | I]; [reflexivity|]. cbn [reals]. rewrite (IH I). destruct o; reflexivity.
Qed.
Theorem C151_numbers_refuted d l n g : dict_get (bs "Matrix") d = Some (OArr l) -> length l = 6%nat -> List.In (ORef n g) l -> get_matrix d = Err EInvalidDataType.
Proof. intros G L I. unfold get_matrix, get_key. rewrite G, L. cbn [Nat.ltb Nat.leb]. rewrite firstn_all2 by lia. apply (reals_ref l n g I). Qed.
Print Assumptions C151_numbers_refuted.
Example C151_case : let look := fun r : Z * Z => Some (OArr (map ONum [2; 0; 0; 2; 5; 6])) in matrix_is look [(bs "Matrix", ORef 3 0)] (map inject_Z [2; 0; 0; 2; 5; 6]) /\ get_matrix [(bs "Matrix", ORef 3 0)] = Err EInvalidDataType
  /\ get_matrix [(bs "Matrix", OArr (map ONum [2; 0; 0; 2; 5; 6]))] = Ok (map dq [(2, 0%nat); (0, 0%nat); (0, 0%nat); (2, 0%nat); (5, 0%nat); (6, 0%nat)]).
Proof.
  split; [|split; reflexivity]. apply (MSome _ _ (map ONum [2; 0; 0; 2; 5; 6]) (map ONum [2; 0; 0; 2; 5; 6])).
  - eexists. split; [reflexivity|]. apply VIndirect. reflexivity.
  - cbn [map]. repeat constructor; discriminate.
  - cbn [map]. repeat constructor.
  - reflexivity.
Qed.

(** ** C152 *)
Lemma dec_same a b : 0 <= a -> 0 <= b -> WriteModel.dec a = WriteModel.dec b -> a = b.
Proof. intros A B E. destruct (dec_digits a A) as (_ & NA & _). destruct (dec_digits b B) as (_ & NB & _). congruence. Qed.
(** XObjects and graphics states with different numbers have different names for the same prefix.
    Missing: prefixes that differ, and objects that differ in the generation only, see below. *)
Theorem C152_distinct_partial prefix a b : 0 <= a -> 0 <= b -> a <> b -> identifier prefix a <> identifier prefix b /\ gs_identifier a <> gs_identifier b.
Proof.
  intros A B N. split; intros E; apply N; (apply dec_same; [exact A|exact B|]); unfold identifier, gs_identifier in E; apply app_inv_head in E; exact E.
Qed.
Print Assumptions C152_distinct_partial.
(** Prefixes of callers that end with digits give two objects the same name: the second is drawn as the first, or replaces it. *)
Theorem C152_prefix_refuted : exists p q a b, a <> b /\ p <> [] /\ q <> [] /\ identifier p a = identifier q b.
Proof. exists (bs "Im1"), (bs "Im"), 2, 12. repeat split; try discriminate. Qed.
Print Assumptions C152_prefix_refuted.
(** So do images of the caller and graphics states, which is harmless as the resources are apart; and all direct objects are number 0. *)
Theorem C152_direct_refuted look d d' x x' : try_create look None 0 (ODict d) = Ok (Some x) -> try_create look None 0 (ODict d') = Ok (Some x') -> x_name x = x_name x'.
Proof.
  assert (N : forall d x, try_create look None 0 (ODict d) = Ok (Some x) -> x_name x = identifier [] 0).
  { clear. intros d x E. unfold try_create in E. destruct (get_key (bs "Type") d) as [t|]; [|discriminate]. destruct t; try discriminate. match type of E with (if ?c then _ else _) = _ => destruct c end; [discriminate|].
    destruct (kind_of look d) as [[| |]|]; [| | |discriminate].
    - unfold open_form in E. apply bind_ok in E. destruct E as (y & E & EQ). injection EQ as <-. apply bind_ok in E. destruct E as (r & _ & E). destruct (dict_find look (bs "Resources") d) as [v|]; [destruct v; try discriminate|]; injection E as <-; reflexivity.
    - unfold open_image in E. apply bind_ok in E. destruct E as (y & E & EQ). injection EQ as <-. apply bind_ok in E. destruct E as (w & _ & E). apply bind_ok in E. destruct E as (h & _ & E). injection E as <-. reflexivity.
    - injection E as <-. reflexivity. }
  intros E E'. rewrite (N d x E), (N d' x' E'). reflexivity.
Qed.
Print Assumptions C152_direct_refuted.
Example C152_case : identifier [] 34 = bs "XOb34" /\ identifier (bs "Img") 5 = bs "Img5" /\ gs_identifier 120 = bs "ExtGS120" /\ identifier (bs "Im1") 2 = identifier (bs "Im") 12.
Proof. vm_compute. auto. Qed.

(** ** C153 *)
(** An entry that only the calls [sel] set *)
Lemma entry_last {V} k (sel : gcall -> option V) (put : V -> obj) : (forall c d, dict_get k (gs_step c d) = match sel c with Some v => Some (put v) | None => dict_get k d end) ->
  forall cs d v, dict_get k d = option_map put v -> dict_get k (gs_run cs d) = option_map put (last_value sel v cs).
Proof.
  intros S. induction cs as [|c cs IH]; intros d v E; [exact E|]. cbn [gs_run last_value]. apply IH. rewrite S. destruct (sel c); [reflexivity|exact E].
Qed.
Lemma get_other k q (v : obj) d : k <> q -> dict_get k (dict_add q v d) = dict_get k d.
Proof. intros N. apply get_add_other, beq_neq, N. Qed.
Ltac steps := intros c d; destruct c; cbn [gs_step]; first [apply get_add_same | apply get_other; vm_compute; discriminate].
(** The entries after any calls are those of the last call for them; a parameter without call is not mentioned. *)
Theorem C153_calls cs : let d := gs_run cs new_gs in
  dict_get (bs "ca") d = option_map real (last_value (fun c => match c with GFillOpacity q => Some q | _ => None end) None cs) /\
  dict_get (bs "CA") d = option_map real (last_value (fun c => match c with GStrokeOpacity q => Some q | _ => None end) None cs) /\
  dict_get (bs "BM") d = option_map OName (last_value (fun c => match c with GBlend n => Some n | _ => None end) None cs) /\
  dict_get (bs "RI") d = option_map OName (last_value (fun c => match c with GIntent n => Some n | _ => None end) None cs) /\
  dict_get (bs "OPM") d = option_map (fun b : bool => ONum (if b then 1 else 0)) (last_value (fun c => match c with GNonZero b => Some b | _ => None end) None cs) /\
  stroke_overprint d (last_value (fun c => match c with GOverprint b | GStrokeOverprint b => Some b | _ => None end) None cs) /\
  (forall k, ~ List.In k [bs "ca"; bs "CA"; bs "BM"; bs "RI"; bs "OPM"; bs "OP"; bs "op"; bs "HT"] -> dict_get k d = dict_get k new_gs).
Proof.
  cbv zeta. repeat split.
  - apply (entry_last (bs "ca") (fun c => match c with GFillOpacity q => Some q | _ => None end) real); [steps|reflexivity].
  - apply (entry_last (bs "CA") (fun c => match c with GStrokeOpacity q => Some q | _ => None end) real); [steps|reflexivity].
  - apply (entry_last (bs "BM") (fun c => match c with GBlend q => Some q | _ => None end) OName); [steps|reflexivity].
  - apply (entry_last (bs "RI") (fun c => match c with GIntent q => Some q | _ => None end) OName); [steps|reflexivity].
  - apply (entry_last (bs "OPM") (fun c => match c with GNonZero q => Some q | _ => None end) (fun b : bool => ONum (if b then 1 else 0))); [steps|reflexivity].
  - assert (E : dict_get (bs "OP") (gs_run cs new_gs) = option_map OBool (last_value (fun c => match c with GOverprint b | GStrokeOverprint b => Some b | _ => None end) None cs)).
    { apply (entry_last (bs "OP") (fun c => match c with GOverprint b | GStrokeOverprint b => Some b | _ => None end) OBool); [steps|reflexivity]. }
    destruct (last_value _ None cs); constructor; exact E.
  - intros k K. generalize new_gs. induction cs as [|c cs IH]; intros d; [reflexivity|]. cbn [gs_run]. rewrite IH. destruct c; cbn [gs_step]; apply get_other; intros ->; apply K; cbn [List.In]; auto 10.
Qed.
Print Assumptions C153_calls.
(** The halftone has the frequency that was set last. *)
Theorem C153_frequency cs q : last_value (fun c => match c with GFrequency q => Some q | _ => None end) None cs = Some q ->
  exists h, dict_get (bs "HT") (gs_run cs new_gs) = Some (ODict h) /\ dict_get (bs "Frequency") h = Some (real q) /\ dict_get (bs "HalftoneType") h = Some (ONum 1).
Proof.
  intros L. set (put := fun q => ODict (dict_add (bs "SpotFunction") (OName (bs "SimpleDot")) (dict_add (bs "Angle") (OReal 45 0) (dict_add (bs "Frequency") (real q) (dict_add (bs "HalftoneType") (ONum 1) []))))).
  assert (E : dict_get (bs "HT") (gs_run cs new_gs) = option_map put (last_value (fun c => match c with GFrequency q => Some q | _ => None end) None cs)).
  { apply (entry_last (bs "HT") (fun c => match c with GFrequency q => Some q | _ => None end) put); [|reflexivity]. intros c d; destruct c; cbn [gs_step]; first [apply get_add_same | apply get_other; vm_compute; discriminate]. }
  rewrite L in E. cbn [option_map] in E. unfold put in E. eexists. split; [exact E|]. split; reflexivity.
Qed.
Print Assumptions C153_frequency.
(** So is overprinting when filling, if it is not set for strokes only and not set for both after it was set for filling.
    Missing: those two, see below. *)
Theorem C153_fill_partial cs : (forall b, ~ List.In (GStrokeOverprint b) cs) -> (forall x y b b', cs = x ++ GFillOverprint b :: y -> ~ List.In (GOverprint b') y) ->
  fill_overprint (gs_run cs new_gs) (last_value (fun c => match c with GOverprint b | GFillOverprint b => Some b | _ => None end) None cs).
Proof.
  intros NS NO.
  assert (E : dict_get (bs "op") (gs_run cs new_gs) = option_map OBool (last_value (fun c => match c with GFillOverprint b => Some b | _ => None end) None cs)).
  { apply (entry_last (bs "op") (fun c => match c with GFillOverprint b => Some b | _ => None end) OBool); [steps|reflexivity]. }
  destruct (C153_calls cs) as (_ & _ & _ & _ & _ & ST & _).
  assert (A : forall cs v w, (forall x y b b', cs = x ++ GFillOverprint b :: y -> ~ List.In (GOverprint b') y) -> (v = None \/ (v = w /\ forall b, ~ List.In (GOverprint b) cs)) ->
    match last_value (fun c => match c with GFillOverprint b => Some b | _ => None end) v cs with
    | Some b => last_value (fun c => match c with GOverprint b | GFillOverprint b => Some b | _ => None end) w cs = Some b
    | None => forall u, u = w -> (forall b, ~ List.In (GStrokeOverprint b) cs) -> last_value (fun c => match c with GOverprint b | GStrokeOverprint b => Some b | _ => None end) u cs = last_value (fun c => match c with GOverprint b | GFillOverprint b => Some b | _ => None end) w cs
    end).
  { clear. induction cs as [|c cs IH]; intros v w NO VW; cbn [last_value].
    - destruct VW as [-> | (-> & _)]; [auto|]. destruct w; auto.
    - assert (NO' : forall x y b b', cs = x ++ GFillOverprint b :: y -> ~ List.In (GOverprint b') y) by (intros x y b b' EQ; apply (NO (c :: x) y b b'); rewrite EQ; reflexivity).
      assert (R : forall v' w', (v' = None \/ (v' = w' /\ forall b, ~ List.In (GOverprint b) cs)) -> 
        match last_value (fun c => match c with GFillOverprint b => Some b | _ => None end) v' cs with
        | Some b => last_value (fun c => match c with GOverprint b | GFillOverprint b => Some b | _ => None end) w' cs = Some b
        | None => forall u, u = w' -> (forall b, ~ List.In (GStrokeOverprint b) cs) -> last_value (fun c => match c with GOverprint b | GStrokeOverprint b => Some b | _ => None end) u cs = last_value (fun c => match c with GOverprint b | GFillOverprint b => Some b | _ => None end) w' cs
        end) by (intros; apply IH; assumption).
      destruct c; cbv iota beta.
      all: try (assert (VW' : v = None \/ (v = w /\ forall b, ~ List.In (GOverprint b) cs)) by (destruct VW as [-> | (-> & N)]; [left; reflexivity|right; split; [reflexivity|intros b' I; apply (N b'); right; exact I]]);
        specialize (R v w VW'); destruct (last_value _ v cs); [exact R|intros u U NSS; apply R; [exact U|intros b' I; apply (NSS b'); right; exact I]]).
      + assert (v = None) as -> by (destruct VW as [V | (_ & N)]; [exact V|destruct (N b); left; reflexivity]).
        specialize (R None (Some b) (or_introl eq_refl)). destruct (last_value _ None cs); [exact R|intros u U NSS; apply R; [reflexivity|intros b' I; apply (NSS b'); right; exact I]].
      + specialize (R (Some b) (Some b) (or_intror (conj eq_refl (fun b' => NO [] cs b b' eq_refl)))). destruct (last_value _ (Some b) cs) eqn:LV; [exact R|].
        exfalso. clear -LV. revert b LV. induction cs as [|c cs IH]; intros b LV; [discriminate|]. cbn [last_value] in LV. destruct c; apply IH in LV; exact LV.
      + assert (VW' : v = None \/ (v = w /\ forall b, ~ List.In (GOverprint b) cs)) by (destruct VW as [-> | (-> & N)]; [left; reflexivity|right; split; [reflexivity|intros b' I; apply (N b'); right; exact I]]).
        specialize (R v w VW'). destruct (last_value _ v cs); [exact R|]. intros u U NSS. destruct (NSS b). left. reflexivity. }
  specialize (A cs None None NO (or_introl eq_refl)). destruct (last_value (fun c => match c with GFillOverprint b => Some b | _ => None end) None cs) as [b|].
  - rewrite A. apply FOsome. exact E.
  - apply FOboth; [exact E|]. rewrite <- (A None eq_refl NS). exact ST.
Qed.
Print Assumptions C153_fill_partial.
(** Overprinting for strokes only turns it on for filling as well. *)
Theorem C153_stroke_refuted : exists cs, last_value (fun c => match c with GOverprint b | GFillOverprint b => Some b | _ => None end) None cs = None /\ fill_overprint (gs_run cs new_gs) (Some true).
Proof. exists [GStrokeOverprint true]. split; [reflexivity|]. apply FOboth; [reflexivity|]. constructor. reflexivity. Qed.
Print Assumptions C153_stroke_refuted.
(** Overprinting for both does not turn it on for filling, where that was set before. *)
Theorem C153_both_refuted cs b : last_value (fun c => match c with GFillOverprint b => Some b | _ => None end) None cs = Some b -> fill_overprint (gs_run (cs ++ [GOverprint (negb b)]) new_gs) (Some b).
Proof.
  intros L. apply FOsome.
  assert (E : dict_get (bs "op") (gs_run (cs ++ [GOverprint (negb b)]) new_gs) = option_map OBool (last_value (fun c => match c with GFillOverprint b => Some b | _ => None end) None (cs ++ [GOverprint (negb b)]))).
  { apply (entry_last (bs "op") (fun c => match c with GFillOverprint b => Some b | _ => None end) OBool); [steps|reflexivity]. }
  rewrite E. assert (LA : forall cs v, last_value (fun c => match c with GFillOverprint b => Some b | _ => None end) v (cs ++ [GOverprint (negb b)]) = last_value (fun c => match c with GFillOverprint b => Some b | _ => None end) v cs).
  { clear. induction cs as [|c cs IH]; intros v; [reflexivity|]. cbn [app last_value]. apply IH. }
  rewrite LA, L. reflexivity.
Qed.
Print Assumptions C153_both_refuted.
Example C153_case : gs_run [GFillOpacity (5, 1%nat); GOverprint true; GFillOverprint false; GFillOpacity (25, 2%nat); GNonZero true] new_gs =
  [(bs "OP", OBool true); (bs "OPM", ONum 1); (bs "Type", OName (bs "ExtGState")); (bs "ca", OReal 25 2); (bs "op", OBool false)].
Proof. vm_compute. reflexivity. Qed.
