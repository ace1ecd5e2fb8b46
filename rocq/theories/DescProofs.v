(** Font descriptors: what is under each key, and reading it *)
From Coq Require Import String QArith Qabs Lqa Lia.
From Verif Require Import Base TokModel OwnModel CidModel FontLoadModel DescModel DescSpec LinkProofs.
Local Open Scope Z_scope.

Fixpoint pick (k : list Z) (l : list (list Z * option obj)) : option obj :=
  match l with [] => None | (k', o) :: t => if beq k k' then o else pick k t end.
Fixpoint apart (l : list (list Z)) : bool := match l with [] => true | k :: t => forallb (fun j => negb (beq j k)) t && apart t end.
Lemma pick_out k l : forallb (fun j => negb (beq j k)) (map fst l) = true -> pick k l = None.
Proof.
  induction l as [|[k' o] t IH]; cbn; [reflexivity|]. intro H. apply andb_true_iff in H. destruct H as [A B].
  destruct (beq k k') eqn:E; [|apply IH, B]. apply beq_eq in E. subst. rewrite beq_refl in A. discriminate.
Qed.
Lemma get_filled k : forall l base, apart (map fst l) = true ->
  get_key k (fold_left add_entry l base) = match pick k l with Some o => Some o | None => get_key k base end.
Proof.
  induction l as [|[k' o] t IH]; intros base A; cbn [fold_left pick]; [reflexivity|].
  cbn [map apart fst] in A. apply andb_true_iff in A. destruct A as [A B]. rewrite (IH _ B). destruct (beq k k') eqn:E.
  - apply beq_eq in E. subst k'. rewrite (pick_out _ _ A). destruct o; cbn [add_entry snd fst]; [apply get_add_same|reflexivity].
  - destruct (pick k t); [reflexivity|]. destruct o; cbn [add_entry snd fst]; [|reflexivity]. apply get_add_other, E.
Qed.
Definition base : list (list Z * obj) := add_key (bs "Type") (OName (bs "FontDescriptor")) [].
Lemma entries_apart t mx my m b : apart (map fst (entries t mx my m b)) = true.
Proof. destruct t; reflexivity. Qed.
Definition plain (o : option obj) : bool := match o with Some (ORef _ _) => false | _ => true end.
Lemma pick_plain k l : forallb (fun e => plain (snd e)) l = true -> plain (pick k l) = true.
Proof.
  induction l as [|[k' o] t IH]; cbn; [reflexivity|]. intro H. apply andb_true_iff in H. destruct H. destruct (beq k k'); auto.
Qed.
Lemma when_plain c o : plain (Some o) = true -> plain (when c o) = true.
Proof. destruct c; auto. Qed.
Lemma entries_plain t mx my m b : plain (Some b) = true -> forallb (fun e => plain (snd e)) (entries t mx my m b) = true.
Proof.
  intro P. unfold entries. destruct t; cbn [app forallb snd]; rewrite ?when_plain by reflexivity; destruct (d_stretch m); rewrite ?P; reflexivity.
Qed.
Lemma find_filled look t mx my m b k : plain (Some b) = true ->
  dict_find look k (fold_left add_entry (entries t mx my m b) base) =
  match pick k (entries t mx my m b) with Some o => Some o | None => if beq k (bs "Type") then Some (OName (bs "FontDescriptor")) else None end.
Proof.
  intro P. unfold dict_find. rewrite (get_filled _ _ _ (entries_apart _ _ _ _ _)).
  pose proof (pick_plain k _ (entries_plain t mx my m b P)) as R.
  destruct (pick k (entries t mx my m b)) as [o|]; [destruct o; try reflexivity; discriminate|].
  unfold base, get_key, add_key. cbn [dict_add dict_get]. destruct (beq k (bs "Type")); reflexivity.
Qed.

Lemma round_int x n : (x == inject_Z n)%Q -> round_q x = n.
Proof.
  unfold Qeq, round_q. cbn [inject_Z Qnum Qden]. intro H. rewrite Z.mul_1_r in H. rewrite H. set (d := Zpos (Qden x)).
  assert (D : 0 < d) by reflexivity. destruct (Z.leb_spec 0 (n * d)).
  - symmetry. apply (Z.div_unique _ _ _ d); lia.
  - assert (E : (2 * - (n * d) + d) / (2 * d) = - n) by (symmetry; apply (Z.div_unique _ _ _ d); lia). lia.
Qed.
Lemma round_near x : (Qabs (inject_Z (round_q x) - x) <= 1 # 2)%Q.
Proof.
  apply Qabs_Qle_condition. destruct x as [n d]. unfold round_q, Qle, Qminus, Qplus, Qopp, inject_Z. cbn [Qnum Qden].
  rewrite !Pos.mul_1_l, ?Z.mul_1_r. change (Zpos 2) with 2. set (z := Zpos d). assert (D : 0 < z) by reflexivity.
  destruct (Z.leb_spec 0 n).
  - pose proof (Z.div_mod (2 * n + z) (2 * z) ltac:(lia)). pose proof (Z.mod_pos_bound (2 * n + z) (2 * z) ltac:(lia)). nia.
  - pose proof (Z.div_mod (2 * - n + z) (2 * z) ltac:(lia)). pose proof (Z.mod_pos_bound (2 * - n + z) (2 * z) ltac:(lia)). nia.
Qed.
Notation s := (1 # 1000)%Q.
Lemma round_back n : round_q (inject_Z n * s / s) = n.
Proof. apply round_int. field. Qed.
Lemma units_back n : units (inject_Z n * s) s = ONum n.
Proof. unfold units. rewrite round_back. reflexivity. Qed.
Lemma near_back x : close (inject_Z (round_q (x / s)) * s) x.
Proof.
  unfold close. pose proof (round_near (x / s)) as H. set (R := inject_Z (round_q (x / s))) in *. clearbody R. apply Qabs_Qle_condition in H. apply Qabs_Qle_condition. unfold Qdiv in H. change (/ s)%Q with 1000%Q in H. split; lra.
Qed.
Lemma pos_scaled n : pos (inject_Z n * s) = (0 <? n).
Proof. unfold pos. cbn. rewrite Z.mul_1_r. reflexivity. Qed.
Lemma pos_le x : pos x = negb (Qle_bool x 0).
Proof. unfold pos, Qle_bool. cbn. destruct x as [n d]. cbn. rewrite Z.mul_1_r. destruct (Z.ltb_spec 0 n), (Z.leb_spec n 0); lia || reflexivity. Qed.
Lemma pos_round x : pos x = true -> 0 <= round_q (x / s).
Proof.
  unfold pos. intro H. apply Z.ltb_lt in H. destruct x as [n d]. cbn [Qnum] in H. unfold round_q, Qdiv, Qmult, Qinv. cbn [Qnum Qden].
  destruct (Z.leb_spec 0 (n * 1000)); [|lia]. apply Z.div_pos; lia.
Qed.

(** What is read from an entry that may be absent *)
Definition back (def x : Q) : Q := if pos x then inject_Z (round_q (x / s)) else def.
Definition bounds (a b c d : Q) : obj := OArr [units a s; units b s; units c s; units d s].
Lemma read_filled look t dw hint m a b c d r :
  t <> Type3 -> d_box m = a :: b :: c :: d :: r ->
  read look t s s dw hint (fold_left add_entry (entries t s s m (bounds a b c d)) base) =
  Ok (mk_met (d_name m) (d_family m) (d_stretch m) (d_flags m) (inject_Z (round_q (d_italic m))) (if 0 <? d_weight m then d_weight m else -1) hint
    [inject_Z (round_q (a / s)) * s; inject_Z (round_q (b / s)) * s; inject_Z (round_q (c / s)) * s; inject_Z (round_q (d / s)) * s]
    (inject_Z (round_q (d_ascent m / s)) * s) (inject_Z (round_q (d_descent m / s)) * s) (inject_Z (round_q (d_cap m / s)) * s) (inject_Z (round_q (d_stemv m / s)) * s)
    (back 0 (d_xheight m) * s) (back (-1) (d_stemh m) * s) (match t with Keyed => dw | _ => back 0 (d_default m) end)
    (back (-1) (d_leading m) * s) (back (-1) (d_avg m) * s) (back (-1) (d_max m) * s))%Q.
Proof.
  intros T _. unfold read, key_real, key_as. rewrite !find_filled by reflexivity.
  assert (ST : forall x, stretch_of (stretch_name x) = Some x) by (intros []; reflexivity).
  assert (TQ : forall n, trunc_q (inject_Z n) = n) by (intro; apply Z.quot_1_r).
  set (l := entries t s s m (bounds a b c d)).
  assert (K1 : pick (bs "FontName") l = Some (OName (d_name m))) by (destruct t; reflexivity).
  assert (K2 : pick (bs "FontFamily") l = when (match d_family m with [] => false | _ => true end) (OStr false (d_family m))) by (destruct t; reflexivity).
  assert (K3 : pick (bs "FontStretch") l = option_map (fun s => OName (stretch_name s)) (d_stretch m)) by (destruct t; reflexivity).
  assert (K4 : pick (bs "Flags") l = Some (ONum (d_flags m))) by (destruct t; reflexivity).
  assert (K5 : pick (bs "ItalicAngle") l = Some (ONum (round_q (d_italic m)))) by (destruct t; reflexivity).
  assert (K6 : pick (bs "FontWeight") l = when (0 <? d_weight m) (ONum (d_weight m))) by (destruct t; [reflexivity|reflexivity|contradiction]).
  assert (K7 : pick (bs "FontBBox") l = Some (bounds a b c d)) by (destruct t; [reflexivity|reflexivity|contradiction]).
  assert (K8 : pick (bs "Ascent") l = Some (units (d_ascent m) s)) by (destruct t; [reflexivity|reflexivity|contradiction]).
  assert (K9 : pick (bs "Descent") l = Some (units (d_descent m) s)) by (destruct t; [reflexivity|reflexivity|contradiction]).
  assert (K10 : pick (bs "CapHeight") l = Some (units (d_cap m) s)) by (destruct t; [reflexivity|reflexivity|contradiction]).
  assert (K11 : pick (bs "StemV") l = Some (units (d_stemv m) s)) by (destruct t; [reflexivity|reflexivity|contradiction]).
  assert (K12 : pick (bs "XHeight") l = when (pos (d_xheight m)) (units (d_xheight m) s)) by (destruct t; [reflexivity|reflexivity|contradiction]).
  assert (K13 : pick (bs "StemH") l = when (pos (d_stemh m)) (units (d_stemh m) s)) by (destruct t; [reflexivity|reflexivity|contradiction]).
  assert (K14 : pick (bs "Leading") l = when (pos (d_leading m)) (units (d_leading m) s)) by (destruct t; reflexivity).
  assert (K15 : pick (bs "AvgWidth") l = when (pos (d_avg m)) (units (d_avg m) s)) by (destruct t; reflexivity).
  assert (K16 : pick (bs "MaxWidth") l = when (pos (d_max m)) (units (d_max m) s)) by (destruct t; reflexivity).
  assert (K17 : t <> Keyed -> pick (bs "MissingWidth") l = when (pos (d_default m)) (units (d_default m) s)) by (intro; destruct t; [reflexivity|contradiction|contradiction]).
  assert (W : (match t with Keyed => Ok dw | _ => match (match pick (bs "MissingWidth") l with Some o => Some o | None => if beq (bs "MissingWidth") (bs "Type") then Some (OName (bs "FontDescriptor")) else None end) with Some o => as_real o | None => Ok 0%Q end end)
     = Ok (match t with Keyed => dw | _ => back 0 (d_default m) end)).
  { destruct t; [|reflexivity|contradiction]. rewrite K17 by discriminate. unfold when, back. destruct (pos (d_default m)); reflexivity. }
  rewrite K1, K2, K3, K4, K5, K6, K7, K8, K9, K10, K11, K12, K13, K14, K15, K16. unfold back in *.
  assert (FA : match (match when (match d_family m with [] => false | _ => true end) (OStr false (d_family m)) with
                      | Some o => Some o | None => if beq (bs "FontFamily") (bs "Type") then Some (OName (bs "FontDescriptor")) else None end)
               with Some o => read_family o | None => Ok [] end = Ok (d_family m)) by (destruct (d_family m); reflexivity).
  assert (SA : match (match option_map (fun s => OName (stretch_name s)) (d_stretch m) with
                      | Some o => Some o | None => if beq (bs "FontStretch") (bs "Type") then Some (OName (bs "FontDescriptor")) else None end)
               with Some o => read_stretch o | None => Ok None end = Ok (d_stretch m)).
  { destruct (d_stretch m); [|reflexivity]. cbn [option_map read_stretch]. rewrite ST. reflexivity. }
  rewrite FA, SA. fold l in W |- *. cbn [as_name]. rewrite W. clear - TQ.
  unfold when, bounds, units. cbn [as_number as_real box as_array at_idx nth_error lenient]. unfold thousandths, cell. cbn [nth].
  destruct (0 <? d_weight m), (pos (d_xheight m)), (pos (d_stemh m)), (pos (d_leading m)), (pos (d_avg m)), (pos (d_max m)); cbn [bind as_real]; rewrite ?TQ; reflexivity.
Qed.
