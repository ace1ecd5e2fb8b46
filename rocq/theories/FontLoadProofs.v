(** Lemmas about the fonts of dictionaries *)
From Coq Require Import String QArith.
From Verif Require Import Base TokModel OwnModel ChainProofs CidModel DiffModel FontLoadModel FontLoadSpec.
Local Open Scope Z_scope.
Local Notation dict := (list (list Z * obj)) (only parsing).

Lemma entry_find lk k d o : entry lk k d o -> dict_find lk k d = Some o.
Proof.
  intros [G N|n g G L]; unfold dict_find; rewrite G; [|exact L]. destruct o; try reflexivity. destruct (N n g eq_refl).
Qed.
Lemma find_entry lk k d o : dict_find lk k d = Some o -> entry lk k d o.
Proof.
  unfold dict_find. destruct (get_key k d) as [x|] eqn:G; [|discriminate]. destruct x; intros E; try (injection E as <-; constructor 1; [exact G|intros; discriminate]). econstructor 2; eassumption.
Qed.
Lemma find_without lk k d : without lk k d -> dict_find lk k d = None.
Proof. intros W. destruct (dict_find lk k d) as [o|] eqn:E; [|reflexivity]. destruct (W o (find_entry _ _ _ _ E)). Qed.
Lemma num_real o q : num o q -> as_real o = Ok q.
Proof. intros []; reflexivity. Qed.
Lemma real_num o q : as_real o = Ok q -> num o q.
Proof. destruct o; intros E; try discriminate; apply ok_inj in E; subst q; constructor. Qed.
Lemma scaled_all a l : forall ws, scaled a l = Ok ws -> Forall2 (fun w x => exists q, num x q /\ (w == q * a)%Q) ws l.
Proof.
  induction l as [|o l IH]; intros ws E; cbn [scaled] in E; [apply ok_inj in E; subst ws; constructor|]. apply bind_ok in E. destruct E as (q & R & E). apply bind_ok in E. destruct E as (r & S & E). apply ok_inj in E. subst ws.
  constructor; [|apply IH; exact S]. exists q. split; [apply real_num; exact R|reflexivity].
Qed.
Lemma file_kind e k d r : font_file e k d = Ok r -> (fst r = FKType3 <-> k = FKType3).
Proof.
  assert (H : forall k d r, file3 e k d = Ok r -> (fst r = FKType3 <-> k = FKType3)).
  { clear. intros k d r. unfold file3. destruct (dict_find _ _ _) as [o|]; [|intros E; apply ok_inj in E; subst r; reflexivity]. intros E. apply bind_ok in E. destruct E as (f & _ & E). apply bind_ok in E. destruct E as (s & _ & E).
    apply ok_inj in E. subst r. cbn [fst]. destruct k; try reflexivity; repeat match goal with |- context [if ?b then _ else _] => destruct b end; split; discriminate. }
  destruct k; cbn [font_file]; try (intros E; apply ok_inj in E; subst r; reflexivity); (destruct (dict_find _ _ _) as [o|]; [intros E; apply ok_inj in E; subst r; reflexivity|apply H]).
Qed.
(** The parts of metrics that are made *)
Lemma metrics_parts e k font desc m : simple_metrics e k font desc = Ok m ->
  exists k', (k' = FKType3 <-> k = FKType3) /\ me_kind m = k' /\ matrix e k' font = Ok (me_matrix m) /\ widths e (cell (me_matrix m) 0) font = Ok (me_widths m) /\
  exists n0, find_as e as_name (bs "BaseFont") [] font = Ok n0 /\
  match desc with
  | None => k = FKType3 /\ name_of e (bs "Name") font n0 = Ok (me_name m) /\ match dict_find (look e) (bs "FontBBox") font with Some o => box thousandths o | None => Ok [] end = Ok (me_box m)
  | Some o => exists d, o = ODict d /\ name_of e (bs "FontName") d n0 = Ok (me_name m) /\ match dict_find (look e) (bs "FontBBox") d with Some o => box thousandths o | None => Ok [] end = Ok (me_box m) /\
     find_as e as_real (bs "MissingWidth") 0%Q d = Ok (me_default m)
  end.
Proof.
  unfold simple_metrics. intros E. apply bind_ok in E. destruct E as (n0 & N & E). apply bind_ok in E. destruct E as (t & T & E). destruct t as [[[[n b] k'] p] w].
  apply bind_ok in E. destruct E as (mx & M & E). apply bind_ok in E. destruct E as (ws & W & E). apply bind_ok in E. destruct E as (v & _ & E). destruct v as [[fl asc] des]. apply ok_inj in E. subst m. cbn [me_kind me_matrix me_widths me_name me_box me_default].
  exists k'. destruct desc as [o|].
  - apply bind_ok in T. destruct T as (d & D & T). apply bind_ok in T. destruct T as (n1 & N1 & T). apply bind_ok in T. destruct T as (b1 & B1 & T). apply bind_ok in T. destruct T as (p1 & P1 & T). apply bind_ok in T. destruct T as (w1 & W1 & T).
    apply ok_inj in T. injection T as <- <- <- <- <-. split; [apply (file_kind _ _ _ _ P1)|]. repeat split; auto. exists n0. split; [exact N|]. exists d. destruct o; try discriminate D. apply ok_inj in D. subst. auto.
  - destruct k; try discriminate T. apply bind_ok in T. destruct T as (n1 & N1 & T). apply bind_ok in T. destruct T as (b1 & B1 & T). apply ok_inj in T. injection T as <- <- <- <- <-.
    split; [reflexivity|]. repeat split; auto. exists n0. auto.
Qed.
Lemma with_inv e font m l : with_encoding e font m = Ok (Some l) -> lo_metrics l = m /\ create_encoding e font m = Ok (Some (lo_encoding l, lo_unicode l)).
Proof.
  unfold with_encoding. intros E. apply bind_ok in E. destruct E as (x & C & E). apply ok_inj in E. destruct x as [[a t]|]; [|discriminate]. injection E as <-. auto.
Qed.
(** A font with its own metrics, of one of the three simple kinds *)
Lemma loaded_simple e font l m s : try_create e font = Ok (Some l) -> lo_metrics l = inr m -> entry (look e) (bs "Subtype") font (OName s) -> s <> bs "Type0" ->
  exists k, kind_named s = Some k /\ simple_metrics e k font (dict_find (look e) (bs "FontDescriptor") font) = Ok m.
Proof.
  intros E M S N. apply entry_find in S. unfold try_create in E. destruct (dict_find (look e) (bs "Type") font) as [t|]; [|discriminate]. apply bind_ok in E. destruct E as (t' & _ & E).
  destruct (negb (beq t' (bs "Font"))); [discriminate|]. rewrite S in E. cbn [as_name bind] in E. rewrite (proj2 (beq_neq _ _) N) in E. destruct (kind_named s) as [k|]; [|discriminate]. exists k. split; [reflexivity|].
  assert (G : forall desc, (do m <- simple_metrics e k font desc; with_encoding e font (inr m)) = Ok (Some l) -> simple_metrics e k font desc = Ok m).
  { intros desc B. apply bind_ok in B. destruct B as (m' & MM & B). apply with_inv in B. destruct B as [B _]. rewrite M in B. injection B as <-. exact MM. }
  destruct (dict_find (look e) (bs "FontDescriptor") font) as [o|]; destruct k; try (apply G; exact E).
  apply bind_ok in E. destruct E as (b & _ & E). destruct b as [n|]; [|discriminate]. apply with_inv in E. destruct E as [E _]. congruence.
Qed.
Lemma loaded_encoding e font l : try_create e font = Ok (Some l) -> create_encoding e font (lo_metrics l) = Ok (Some (lo_encoding l, lo_unicode l)).
Proof.
  intros E. unfold try_create in E. destruct (dict_find (look e) (bs "Type") font) as [t|]; [|discriminate]. apply bind_ok in E. destruct E as (t' & _ & E).
  destruct (negb (beq t' (bs "Font"))); [discriminate|]. destruct (dict_find (look e) (bs "Subtype") font) as [s|]; [|discriminate]. apply bind_ok in E. destruct E as (s' & _ & E).
  assert (W : forall m, with_encoding e font m = Ok (Some l) -> create_encoding e font (lo_metrics l) = Ok (Some (lo_encoding l, lo_unicode l))) by (intros m H; apply with_inv in H; destruct H as [-> H]; exact H).
  destruct (beq s' (bs "Type0")).
  - destruct (dict_find (look e) (bs "DescendantFonts") font) as [o|]; [|discriminate]. apply bind_ok in E. destruct E as (ds & _ & E). destruct ds as [|x ds]; [discriminate|].
    destruct (match x with ORef n g => look e (n, g) | _ => Some x end) as [y|]; [|discriminate]. apply bind_ok in E. destruct E as (c & _ & E). cbv zeta in E. apply bind_ok in E. destruct E as (sub & _ & E).
    apply bind_ok in E. destruct E as (m & _ & E). exact (W _ E).
  - destruct (kind_named s') as [k|]; [|discriminate]. destruct (dict_find (look e) (bs "FontDescriptor") font) as [o|]; destruct k; try (apply bind_ok in E; destruct E as (m & _ & E); exact (W _ E)).
    apply bind_ok in E. destruct E as (b & _ & E). destruct b as [n|]; [|discriminate]. exact (W _ E).
Qed.
Lemma stream_entry e k d o : entry (look e) k d o -> exists b, find_stream e k d = Some (o, b).
Proof. intros [G N|n g G L]; unfold find_stream; rewrite G; [destruct o; eauto; destruct (N n g eq_refl)|rewrite L; cbn; eauto]. Qed.
Lemma named_map e b x n m : named n m -> create_map e b (OName n, x) = Ok (Some m).
Proof. intros []; reflexivity. Qed.

(** ** No undefined behaviour *)
Lemma bind_safe {A B} (r : res A) (k : A -> res B) : r <> UB -> (forall x, r = Ok x -> k x <> UB) -> bind r k <> UB.
Proof. destruct r; cbn [bind]; intros N H; try discriminate; [apply H; reflexivity|congruence]. Qed.
Lemma name_safe o : as_name o <> UB. Proof. destruct o; discriminate. Qed.
Lemma array_safe o : as_array o <> UB. Proof. destruct o; discriminate. Qed.
Lemma dict_safe o : as_dict o <> UB. Proof. destruct o; discriminate. Qed.
Lemma real_safe o : as_real o <> UB. Proof. destruct o; discriminate. Qed.
Lemma number_safe o : as_number o <> UB. Proof. destruct o; discriminate. Qed.
Lemma idx_safe l i : at_idx l i <> UB. Proof. unfold at_idx. destruct (nth_error l i); discriminate. Qed.
Lemma lenient_safe o : lenient o <> UB. Proof. destruct o; discriminate. Qed.
Lemma find_safe {A} e (f : obj -> res A) k def d : (forall o, f o <> UB) -> find_as e f k def d <> UB.
Proof. unfold find_as. intros H. destruct (dict_find _ _ _); [apply H|discriminate]. Qed.
Local Hint Resolve name_safe array_safe dict_safe real_safe number_safe idx_safe lenient_safe : font.
Lemma box_safe m o : box m o <> UB.
Proof. unfold box. repeat (apply bind_safe; [auto with font|intros]). discriminate. Qed.
Lemma scaled_safe a l : scaled a l <> UB.
Proof. induction l; cbn [scaled]; [discriminate|]. repeat (apply bind_safe; [auto with font|intros]). discriminate. Qed.
Lemma cells_safe l n : forall i, read_cells l i n <> UB.
Proof. induction n as [|n IH]; intros i; cbn [read_cells]; [discriminate|]. repeat (apply bind_safe; [auto with font|intros]). discriminate. Qed.
Lemma file_safe e k d : font_file e k d <> UB.
Proof.
  assert (H : forall k, file3 e k d <> UB). { intros j. unfold file3. destruct (dict_find _ _ _); [|discriminate]. apply bind_safe; [auto with font|intros]. apply bind_safe; [apply find_safe; auto with font|]. discriminate. }
  destruct k; cbn [font_file]; try discriminate; (destruct (dict_find _ _ _); [discriminate|apply H]).
Qed.
Lemma metrics_safe e k f desc : (desc = None -> k = FKType3) -> (forall d h s, desc = Some (ODict d) -> dict_find (look e) (bs "FontStretch") d <> Some (OStr h s)) -> simple_metrics e k f desc <> UB.
Proof.
  intros D S. unfold simple_metrics. apply bind_safe; [apply find_safe; auto with font|]. intros n _. apply bind_safe.
  - assert (B : forall o, match o with Some o => box thousandths o | None => Ok [] end <> UB) by (intros [o|]; [apply box_safe|discriminate]).
    assert (NA : forall k d n, name_of e k d n <> UB) by (intros k0 d0 [|? ?]; cbn [name_of]; [apply find_safe; auto with font|discriminate]).
    destruct desc as [o|]; [|rewrite (D eq_refl)]; repeat (apply bind_safe; [auto with font; try (apply find_safe; auto with font); apply file_safe|intros]); discriminate.
  - intros [[[[n' b] k'] p] w] _. apply bind_safe.
    + unfold matrix. destruct k'; try discriminate. destruct (dict_find _ _ _); [|discriminate]. apply bind_safe; [auto with font|]. intros. apply cells_safe.
    + intros m _. apply bind_safe; [unfold widths; destruct (dict_find _ _ _); [|discriminate]; apply bind_safe; [auto with font|intros; apply scaled_safe]|]. intros ws _. apply bind_safe.
      * destruct desc as [o|]; [|discriminate]. apply bind_safe; [auto with font|]. intros d E. destruct o as [| | | | | | | |d']; try discriminate E. apply ok_inj in E. subst d'. unfold numbers. apply bind_safe.
        { destruct (dict_find (look e) (bs "FontStretch") d) as [x|] eqn:X; [|discriminate]. destruct x; try discriminate. destruct (S d hex s eq_refl X). }
        intros _ _. repeat (apply bind_safe; [apply find_safe; auto with font|intros]). discriminate.
      * intros [[fl asc] des] _. discriminate.
Qed.
Lemma map_safe e b k f o : (forall x, cmap e x <> UB) -> no_differences e f -> k = bs "Encoding" \/ k = bs "ToUnicode" -> find_stream e k f = Some o -> create_map e b o <> UB.
Proof.
  intros C ND K F. destruct o as [o st]. unfold create_map. cbn [fst snd]. destruct o as [| | | | | | | |d]; try discriminate.
  assert (ST : st = true).
  { unfold find_stream in F. destruct (get_key k f) as [x|] eqn:G; [|discriminate]. assert (EN : entry (look e) k f (ODict d)).
    { destruct x; try discriminate F; [|injection F as -> _; apply Direct; [exact G|intros; discriminate]]. destruct (look e (n, g)) as [y|] eqn:L; [|discriminate]. injection F as -> _. exact (Behind _ _ _ _ n g G L). }
    destruct (ND k d K EN) as (n & g & G' & S). rewrite G in G'. injection G' as ->. destruct (look e (n, g)); [|discriminate]. injection F as _ <-. exact S. }
  subst st. apply bind_safe; [destruct (dict_find _ _ _); [apply bind_safe; [auto with font|discriminate]|discriminate]|]. intros c _.
  repeat match goal with |- (if ?b then _ else _) <> UB => destruct b; try discriminate end. apply bind_safe; [apply C|discriminate].
Qed.
Lemma encoding_safe e f m : (forall x, cmap e x <> UB) -> no_differences e f -> with_encoding e f m <> UB.
Proof.
  intros C ND. unfold with_encoding. apply bind_safe; [|discriminate]. unfold create_encoding. cbv zeta. apply bind_safe.
  - destruct (find_stream e (bs "Encoding") f) as [o|] eqn:F; [|discriminate]. apply (map_safe e _ _ f o C ND (or_introl eq_refl) F).
  - intros enc _. apply bind_safe.
    + destruct (find_stream e (bs "ToUnicode") f) as [o|] eqn:F; [|discriminate]. apply (map_safe e _ _ f o C ND (or_intror eq_refl) F).
    + intros t _. match goal with |- match ?x with _ => _ end <> UB => destruct x; [|discriminate] end. repeat (apply bind_safe; [apply find_safe; auto with font|intros]). discriminate.
Qed.
Lemma kind_cases s k : kind_named s = Some k -> (k = FKType1 /\ s = bs "Type1") \/ (k = FKType3 /\ s = bs "Type3") \/ (k = FKTrueType /\ s = bs "TrueType").
Proof.
  unfold kind_named. destruct (beq s (bs "Type1")) eqn:A; [apply beq_eq in A; intros E; injection E as <-; auto|]. destruct (beq s (bs "Type3")) eqn:B; [apply beq_eq in B; intros E; injection E as <-; auto|].
  destruct (beq s (bs "TrueType")) eqn:C; [apply beq_eq in C; intros E; injection E as <-; auto|discriminate].
Qed.
Lemma create_safe e f : (forall x, cmap e x <> UB) -> (forall d x, cid_metrics e d x <> UB) -> no_differences e f -> described (look e) f -> descended (look e) f -> try_create e f <> UB.
Proof.
  intros C CM ND [DS DT] DE. unfold try_create. destruct (dict_find (look e) (bs "Type") f) as [t|]; [|discriminate]. apply bind_safe; [auto with font|]. intros t' _. destruct (negb _); [discriminate|].
  destruct (dict_find (look e) (bs "Subtype") f) as [s|] eqn:S; [|discriminate]. apply bind_safe; [auto with font|]. intros s' S'. destruct s as [| | | |s0| | | |]; try discriminate S'. apply ok_inj in S'. subst s0.
  pose proof (fun m => encoding_safe e f m C ND) as W. destruct (beq s' (bs "Type0")).
  - destruct (dict_find (look e) (bs "DescendantFonts") f) as [o|] eqn:O; [|discriminate]. apply bind_safe; [auto with font|]. intros l L. destruct o as [| | | | | | |l0|]; try discriminate L. apply ok_inj in L. subst l0. destruct l as [|x r]; [discriminate|].
    destruct (DE x r (find_entry _ _ _ _ O)) as (o & X & D). assert (XO : match x with ORef n g => look e (n, g) | _ => Some x end = Some o).
    { destruct X as [[-> X] | (n & g & -> & X)]; [|exact X]. destruct o; try reflexivity. destruct (X n g eq_refl). }
    rewrite XO. apply bind_safe; [auto with font|]. intros c CC. destruct o as [| | | | | | | |c0]; try discriminate CC. apply ok_inj in CC. subst c0. destruct (D c eq_refl) as [[DS' DT'] D1]. cbv zeta.
    apply bind_safe; [destruct (dict_find (look e) (bs "Subtype") c); [auto with font|discriminate]|]. intros sub SUB. destruct (dict_find (look e) (bs "Subtype") c) as [y|] eqn:SC; [|discriminate].
    destruct y as [| | | |s0| | | |]; try discriminate SUB. apply ok_inj in SUB. subst s0. apply find_entry in SC. apply bind_safe; [|intros; apply W]. destruct (kind_named sub) as [k|] eqn:K; [|apply CM].
    apply metrics_safe; [|intros d h q E G; exact (DS' d h q (find_entry _ _ _ _ E) (find_entry _ _ _ _ G))].
    intros E. destruct (kind_cases _ _ K) as [[-> ->] | [[-> ->] | [-> ->]]]; [|reflexivity|]; exfalso; [destruct (D1 SC) as (o & H)|destruct (DT' SC) as (o & H)]; apply entry_find in H; congruence.
  - destruct (kind_named s') as [k|] eqn:K; [|discriminate]. apply find_entry in S.
    assert (G : forall desc, desc = dict_find (look e) (bs "FontDescriptor") f -> (desc = None -> k = FKType3) -> (do m <- simple_metrics e k f desc; with_encoding e f (inr m)) <> UB).
    { intros desc -> N. apply bind_safe; [|intros; apply W]. apply metrics_safe; [exact N|]. intros d h q E G. exact (DS d h q (find_entry _ _ _ _ E) (find_entry _ _ _ _ G)). }
    destruct (dict_find (look e) (bs "FontDescriptor") f) as [o|] eqn:FD; destruct (kind_cases _ _ K) as [[-> ->] | [[-> ->] | [-> ->]]]; try (apply G; [reflexivity|discriminate || reflexivity]).
    + apply bind_safe; [destruct (dict_find (look e) (bs "BaseFont") f); [apply bind_safe; [auto with font|discriminate]|discriminate]|]. intros [n|] _; [apply W|discriminate].
    + exfalso. destruct (DT S) as (o & H). apply entry_find in H. congruence.
Qed.
