(** C168: font descriptors that are written, read and written again *)
From Coq Require Import String QArith Qabs Lqa Lia.
From Verif Require Import Base TokModel OwnModel CidModel FontLoadModel DescModel DescSpec DescProofs.
Local Open Scope Z_scope.

Lemma fill_ok t m d : fill t s s m = Ok d -> exists x y z w r, d_box m = x :: y :: z :: w :: r /\ d = fold_left add_entry (entries t s s m (bounds x y z w)) base.
Proof.
  unfold fill, bbox. destruct (d_box m) as [|x [|y [|z [|w r]]]]; try discriminate. cbn [bind]. intro H. apply ok_inj in H. subst. exists x, y, z, w, r. split; reflexivity.
Qed.
Lemma back_opt def x : (def <= 0)%Q -> close_opt (back def x * s) x.
Proof.
  intro D. unfold close_opt, back. pose proof (pos_le x) as P. destruct (Qle_bool x 0), (pos x); try discriminate; [|apply near_back]. lra.
Qed.

(** Fonts but Type 3 ones: what is written is read, but for half a thousandth of each number *)
Theorem C168_read_back : forall look t dw hint m d,
  t <> Type3 -> fill t (1 # 1000) (1 # 1000) m = Ok d ->
  exists m', read look t (1 # 1000) (1 # 1000) dw hint d = Ok m' /\
    d_name m' = d_name m /\ d_family m' = d_family m /\ d_stretch m' = d_stretch m /\ d_flags m' = d_flags m /\
    (Qabs (d_italic m' - d_italic m) <= 1 # 2)%Q /\ (0 < d_weight m -> d_weight m' = d_weight m) /\ (d_weight m <= 0 -> d_weight m' = -1) /\
    Forall2 close (d_box m') (firstn 4 (d_box m)) /\
    close (d_ascent m') (d_ascent m) /\ close (d_descent m') (d_descent m) /\ close (d_cap m') (d_cap m) /\ close (d_stemv m') (d_stemv m) /\
    close_opt (d_xheight m') (d_xheight m) /\ close_opt (d_stemh m') (d_stemh m) /\ close_opt (d_leading m') (d_leading m) /\
    close_opt (d_avg m') (d_avg m) /\ close_opt (d_max m') (d_max m).
Proof.
  intros look t dw hint m d T F. destruct (fill_ok _ _ _ F) as (x & y & z & w & r & B & ->).
  eexists. split; [apply (read_filled _ _ _ _ _ _ _ _ _ _ T B)|].
  cbn [d_name d_family d_stretch d_flags d_italic d_weight d_bold d_box d_ascent d_descent d_cap d_stemv d_xheight d_stemh d_default d_leading d_avg d_max].
  do 4 (split; [reflexivity|]). split; [apply round_near|].
  split; [intro W; destruct (Z.ltb_spec 0 (d_weight m)); [reflexivity|lia]|].
  split; [intro W; destruct (Z.ltb_spec 0 (d_weight m)); [lia|reflexivity]|].
  split; [rewrite B; cbn [firstn]; repeat (constructor; [apply near_back|]); constructor|].
  do 4 (split; [apply near_back|]). repeat split; apply back_opt; lra.
Qed.

Definition or0 (o : option obj) : obj := match o with Some o => o | None => ONum 0 end.
Lemma again_opt def x : (def <= 0)%Q -> or0 (when (pos x) (units x s)) = or0 (when (pos (back def x * s)) (units (back def x * s) s)).
Proof.
  intro D. unfold back. destruct (pos x) eqn:P.
  - rewrite pos_scaled, units_back. cbn [when or0]. unfold units. pose proof (pos_round x P).
    destruct (Z.ltb_spec 0 (round_q (x / s))); cbn [when or0]; [reflexivity|]. f_equal. lia.
  - assert (E : pos (def * s) = false) by (rewrite pos_le; apply negb_false_iff, Qle_bool_iff; lra). rewrite E. reflexivity.
Qed.
Lemma or0_type k j o o' : beq k j = true -> beq j (bs "Type") = false -> or0 o = or0 o' ->
  or0 (match o with Some o => Some o | None => if beq k (bs "Type") then Some (OName (bs "FontDescriptor")) else None end) =
  or0 (match o' with Some o => Some o | None => if beq k (bs "Type") then Some (OName (bs "FontDescriptor")) else None end).
Proof. intros K J E. apply beq_eq in K. subst j. rewrite J. destruct o, o'; exact E. Qed.
Lemma units_again x : units x s = units (inject_Z (round_q (x / s)) * s) s.
Proof. rewrite units_back. reflexivity. Qed.
Lemma weight_again w : when (0 <? w) (ONum w) = when (0 <? (if 0 <? w then w else -1)) (ONum (if 0 <? w then w else -1)).
Proof. destruct (0 <? w) eqn:E; [rewrite E|]; reflexivity. Qed.

(** Writing what was read writes a descriptor that says the same, where there is no /MissingWidth *)
Theorem C168_again : forall look t dw hint m d,
  t <> Type3 -> (t = Keyed \/ (d_default m <= 0)%Q) -> fill t (1 # 1000) (1 # 1000) m = Ok d ->
  exists m' d', read look t (1 # 1000) (1 # 1000) dw hint d = Ok m' /\ fill t (1 # 1000) (1 # 1000) m' = Ok d' /\ same_descriptor d d'.
Proof.
  intros look t dw hint m d T N F. destruct (fill_ok _ _ _ F) as (x & y & z & w & r & B & ->).
  eexists. eexists. split; [apply (read_filled _ _ _ _ _ _ _ _ _ _ T B)|]. split; [reflexivity|].
  intro k. unfold says.
  fold base. rewrite !find_filled by reflexivity. fold (or0 (match pick k (entries t s s m (bounds x y z w)) with Some o => Some o | None => if beq k (bs "Type") then Some (OName (bs "FontDescriptor")) else None end)).
  match goal with |- or0 ?a = match ?b with _ => _ end => change (or0 a = or0 b) end.
  assert (RI : round_q (d_italic m) = round_q (inject_Z (round_q (d_italic m)))) by (symmetry; apply round_int; reflexivity).
  unfold entries.
  cbn [d_name d_family d_stretch d_flags d_italic d_weight d_bold d_box d_ascent d_descent d_cap d_stemv d_xheight d_stemh d_default d_leading d_avg d_max].
  rewrite <- RI, <- weight_again, <- !units_again. unfold bounds. rewrite <- ?units_again.
  destruct t; [| |contradiction]; cbn [app pick].
  all: repeat match goal with
    | |- context [beq ?k (bs ?j)] => lazymatch j with "Type"%string => fail | _ => destruct (beq k (bs j)) eqn:?K; [apply (or0_type k (bs j)); [assumption|reflexivity|]|] end
    end; try reflexivity.
  all: try match goal with |- context [beq ?k ?j] => destruct (beq k j); [reflexivity|] end.
  all: try (apply again_opt; lra).
  destruct N as [N|N]; [discriminate|].
  assert (E : pos (d_default m) = false) by (rewrite pos_le; apply negb_false_iff, Qle_bool_iff; lra). unfold back. rewrite E. reflexivity.
Qed.

Definition sample : met := mk_met (bs "Arial") (bs "Arial") (Some NormalS) 32 ((-25 # 2)) 400 false [(-1 # 2); (-1 # 5); 1; 9 # 10]%Q (905 # 1000) ((-212 # 1000)) (7165 # 10000) (88 # 1000)
  (519 # 1000) (-1)%Q 0%Q (33 # 1000) (1 # 4000) (-1)%Q.
Example C168_case :
  match fill Simple (1 # 1000) (1 # 1000) sample with
  | Ok d => says d (bs "CapHeight") = ONum 717 /\ says d (bs "ItalicAngle") = ONum (-13) /\ get_key (bs "StemH") d = None /\ get_key (bs "AvgWidth") d = Some (ONum 0)
  | _ => False end.
Proof. vm_compute. repeat split. Qed.

(** /MissingWidth is read unscaled: a thousand times as much is written *)
Theorem C168_missing_width_refuted : exists m d m' d',
  fill Simple (1 # 1000) (1 # 1000) m = Ok d /\ read (fun _ => None) Simple (1 # 1000) (1 # 1000) 0%Q false d = Ok m' /\ fill Simple (1 # 1000) (1 # 1000) m' = Ok d' /\
  says d (bs "MissingWidth") = ONum 500 /\ says d' (bs "MissingWidth") = ONum 500000.
Proof.
  exists (mk_met (bs "Arial") [] None 32 0%Q 400 false [0; 0; 1; 1]%Q 1%Q 0%Q 1%Q (88 # 1000) 0%Q (-1)%Q (1 # 2) (-1)%Q (-1)%Q (-1)%Q).
  eexists. eexists. eexists. repeat split; vm_compute; reflexivity.
Qed.
(** The descriptor of a Type 3 font has no box; writing it again reads outside of a vector *)
Theorem C168_type3_refuted : exists m d m',
  fill Type3 (1 # 1000) (1 # 1000) m = Ok d /\ read (fun _ => None) Type3 (1 # 1000) (1 # 1000) 0%Q false d = Ok m' /\ fill Type3 (1 # 1000) (1 # 1000) m' = UB.
Proof. exists sample. eexists. eexists. repeat split; vm_compute; reflexivity. Qed.
(** Absent numbers are -1 before they are scaled: a font matrix that turns the letters upside down makes them numbers that are written *)
Theorem C168_flipped_refuted : exists d m' d',
  get_key (bs "Leading") d = None /\ read (fun _ => None) Type3 (1 # 1000) ((-1 # 1000)) 0 false d = Ok m' /\ fill Type3 (1 # 1000) ((-1 # 1000)) m' = Ok d' /\
  get_key (bs "Leading") d' = Some (ONum (-1)).
Proof.
  exists [(bs "FontBBox", OArr [ONum 0; ONum 0; ONum 10; ONum 10]); (bs "FontName", OName (bs "T"))]. eexists. eexists. repeat split; vm_compute; reflexivity.
Qed.
(** The angle of slanted letters loses its fraction towards zero, so that letters slanted by less than one degree count as upright *)
Theorem C168_angle_refuted : exists d m', says d (bs "ItalicAngle") = OReal (-9) 1 /\
  read (fun _ => None) Simple (1 # 1000) (1 # 1000) 0%Q false d = Ok m' /\ d_italic m' = 0%Q.
Proof. exists [(bs "ItalicAngle", OReal (-9) 1)]. eexists. repeat split; vm_compute; reflexivity. Qed.

Print Assumptions C168_read_back.
Print Assumptions C168_again.
Print Assumptions C168_missing_width_refuted.
Print Assumptions C168_type3_refuted.
Print Assumptions C168_flipped_refuted.
Print Assumptions C168_angle_refuted.
