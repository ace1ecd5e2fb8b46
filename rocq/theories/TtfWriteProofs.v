(** The tables of a subset of a valid font, and the whole. *)
From Coq Require Import Lia String.
From Verif Require Import Base ChainProofs TtfModel TtfSpec TtfReadProofs TtfLoadProofs TtfOrderProofs TtfLayoutProofs.
Local Open Scope Z_scope.

(** ** Sums *)
Fixpoint total (w : Z -> Z) (l : list Z) : Z := match l with [] => 0 | x :: r => w x + total w r end.
Lemma total_app w a b : total w (a ++ b) = total w a + total w b.
Proof. induction a as [|x a IH]; cbn [app total]; lia. Qed.
Lemma total_pos w l : (forall x, In x l -> 0 <= w x) -> 0 <= total w l.
Proof. induction l as [|x l IH]; intros H; cbn [total]; [lia|]. pose proof (H x (or_introl eq_refl)). specialize (IH (fun y I => H y (or_intror I))). lia. Qed.
Lemma total_le w l1 : forall l2, NoDup l1 -> incl l1 l2 -> (forall x, In x l2 -> 0 <= w x) -> total w l1 <= total w l2.
Proof.
  induction l1 as [|x l1 IH]; intros l2 N I P; [apply total_pos; exact P|]. apply NoDup_cons_iff in N as [NI N]. destruct (in_split x l2 (I x (or_introl eq_refl))) as (a & b & ->). rewrite total_app. cbn [total].
  assert (L : total w l1 <= total w (a ++ b)); [|rewrite total_app in L; lia]. apply IH; [exact N| |].
  - intros y Iy. assert (Y : In y (a ++ x :: b)) by (apply I; right; exact Iy). apply in_app_iff in Y as [Y|[Y|Y]]; [apply in_or_app; left; exact Y|subst y; contradiction|apply in_or_app; right; exact Y].
  - intros y Iy. apply P. apply in_app_iff in Iy as [Iy|Iy]; apply in_or_app; [left; exact Iy|right; right; exact Iy].
Qed.
Lemma nth_error_firstn_concat (bs : list (list Z)) : forall i b, nth_error bs i = Some b -> concat bs = concat (firstn i bs) ++ b ++ concat (skipn (S i) bs) /\ concat (firstn (S i) bs) = concat (firstn i bs) ++ b.
Proof.
  induction bs as [|c bs IH]; intros i b E; [destruct i; discriminate|]. destruct i as [|i]; [injection E as ->; cbn [firstn concat skipn app]; rewrite app_nil_r; split; reflexivity|]. cbn [nth_error] in E. destruct (IH i b E) as [A B]. split.
  - cbn [concat firstn]. rewrite A at 1. rewrite <- !app_assoc. reflexivity.
  - change (c ++ concat (firstn (S i) bs) = (c ++ concat (firstn i bs)) ++ b). rewrite B, <- app_assoc. reflexivity.
Qed.
Lemma slice_concat bs i b : nth_error bs i = Some b -> slice (concat bs) (size (concat (firstn i bs))) (size b) = b.
Proof. intros E. destruct (nth_error_firstn_concat bs i b E) as [-> _]. apply slice_mid. Qed.

(** ** Tables of the font *)
Lemma kept_wanted f e : kept (tt_of e) = if wanted f e then Some (mk_tt (en_tag e) (en_off e) (if en_tag e =? t_post then 32 else en_len e)) else None.
Proof.
  unfold kept, tt_of, wanted. cbn [tt_tag tt_off tt_len].
  assert (E : existsb (Z.eqb (en_tag e)) (required ++ [t_cvt; t_fpgm; t_prep]) = existsb (fun s => named s e) [bs "head"; bs "hhea"; bs "loca"; bs "maxp"; bs "glyf"; bs "hmtx"; bs "cvt "; bs "fpgm"; bs "prep"]) by reflexivity.
  rewrite <- E. destruct (existsb (Z.eqb (en_tag e)) (required ++ [t_cvt; t_fpgm; t_prep])) eqn:X; cbn [orb].
  - destruct (Z.eqb_spec (en_tag e) t_post) as [P|P]; [rewrite P in X; discriminate|reflexivity].
  - change (named (bs "post") e) with (en_tag e =? t_post). destruct (en_tag e =? t_post); [|reflexivity]. rewrite Z.ltb_antisym. destruct (32 <=? en_len e); reflexivity.
Qed.
Lemma kept_tags f l : map tt_tag (kept_all l) = map en_tag (filter (wanted f) l).
Proof. induction l as [|e l IH]; [reflexivity|]. cbn [kept_all filter]. rewrite (kept_wanted f). destruct (wanted f e); [cbn [map tt_tag]; rewrite IH; reflexivity|exact IH]. Qed.
Lemma kept_in f l t : In t (kept_all l) -> exists e, In e l /\ wanted f e = true /\ t = mk_tt (en_tag e) (en_off e) (if en_tag e =? t_post then 32 else en_len e).
Proof.
  induction l as [|e l IH]; intros I; [contradiction|]. cbn [kept_all] in I. rewrite (kept_wanted f) in I. destruct (wanted f e) eqn:W; [destruct I as [<-|I]; [exists e; split; [left; reflexivity|split; [exact W|reflexivity]]|]|]; (destruct (IH I) as (e' & A & B & C); exists e'; split; [right; exact A|split; assumption]).
Qed.
Lemma filter_nodup (p : entry -> bool) l : NoDup (map en_tag l) -> NoDup (map en_tag (filter p l)).
Proof.
  induction l as [|e l IH]; intros N; [constructor|]. cbn [map filter] in *. apply NoDup_cons_iff in N as [NI N]. destruct (p e); [|apply IH; exact N]. cbn [map]. constructor; [|apply IH; exact N]. intros I. apply NI. apply in_map_iff in I as (x & E & I). apply filter_In in I as [I _]. apply in_map_iff. exists x. split; assumption.
Qed.
Lemma kept_few f : valid f -> (length (kept_all (dir f)) <= 10)%nat.
Proof.
  intros V. rewrite <- (map_length tt_tag), (kept_tags f). apply (NoDup_incl_length (l' := required ++ [t_cvt; t_fpgm; t_prep; t_post]) (filter_nodup _ _ (v_once f V))). intros x I. apply in_map_iff in I as (e & <- & I). apply filter_In in I as [_ W]. unfold wanted in W. apply orb_true_iff in W as [W|W].
  - apply existsb_exists in W as (s & I & E). unfold named in E. apply Z.eqb_eq in E. rewrite E. cbn [In] in I. destruct I as [<-|[<-|[<-|[<-|[<-|[<-|[<-|[<-|[<-|[]]]]]]]]]]; vm_compute; tauto.
  - apply andb_true_iff in W as [E _]. unfold named in E. apply Z.eqb_eq in E. rewrite E. vm_compute. tauto.
Qed.
Lemma header_ok n : (n <= 10)%nat -> exists h, header (Z.of_nat n) = Ok h /\ size h = 12 /\ at16 h 4 = Z.of_nat n.
Proof. intros L. do 11 (destruct n as [|n]; [eexists; split; [vm_compute; reflexivity|split; reflexivity]|]). lia. Qed.

Section Subset.
Variable f : list Z.
Hypothesis V : valid f.
Variables (m : list (Z * gdata)) (ord : list Z) (fx : list (Z * list (Z * Z))).
Hypothesis (GM : good f m) (NO : NoDup ord) (KO : forall g, In g ord <-> In g (keys m)) (FX : forall k, In k (keys m) -> compound (glyph f k) = true -> fixed f ord k (fix_of fx k)).
Notation fulls := (filter (fun g => g <? hcount f)).
Notation rests := (filter (fun g => negb (g <? hcount f))).
Notation ld := (mk_ld m (low (hcount f) m) ord fx).
Notation fn := (the_font f).
Notation count := (glyph_count f).
Lemma ord_range g : In g ord -> 0 <= g < count.
Proof. intros I. apply (good_few f m GM). apply KO. exact I. Qed.
Lemma ord_length : size ord = Z.of_nat (length m).
Proof.
  unfold size. f_equal. destruct GM as [N _]. unfold keys in *. rewrite <- (map_length fst m). apply Nat.le_antisymm; apply NoDup_incl_length; try assumption; intros x I; apply KO; exact I.
Qed.
Lemma ord_count : size ord <= count.
Proof. pose proof (few count ord NO ord_range) as L. pose proof (v_count f V). unfold size. lia. Qed.
Lemma ord_low : low (hcount f) m = size (fulls ord).
Proof.
  unfold low, size. f_equal. apply Nat.le_antisymm; apply NoDup_incl_length; try (apply NoDup_filter; first [exact NO|exact (proj1 GM)]); intros x I; apply filter_In in I as [I L]; apply filter_In; split; try exact L; apply KO; exact I.
Qed.
Lemma full_few : size (fulls ord) <= size ord.
Proof. unfold size. apply Nat2Z.inj_le. clear. induction ord as [|k l IH]; cbn [filter length]; [lia|]. destruct (k <? hcount f); cbn [length]; lia. Qed.
Lemma data_ok g : In g ord -> glyph_data ld g = data f g.
Proof.
  intros I. unfold glyph_data. cbn [ld_map]. destruct (find_glyph m g) as [d|] eqn:E; [apply find_in in E; apply (proj2 GM g d E)|]. apply find_none in E. exfalso. apply E, KO, I.
Qed.
(** *** glyf *)
Definition shown (g : Z) (b : list Z) : Prop := size b = size (glyph f g) /\ renumbered ord (glyph f g) b.
Lemma glyphs_ok l : incl l ord -> exists bs, write_glyphs f ld l = Ok (concat bs) /\ Forall2 shown l bs.
Proof.
  induction l as [|g l IH]; intros I; [exists []; split; [reflexivity|constructor]|]. assert (Ig : In g ord) by (apply I; left; reflexivity). destruct IH as (bs & E & F); [intros x Ix; apply I; right; exact Ix|]. cbn [write_glyphs]. rewrite (data_ok g Ig), E. cbn [gd_len gd_comp gd_off data ld_fix].
  pose proof (ord_range g Ig) as R. destruct (glyph_slice f V g R) as (GS & G1 & G2). destruct (Z.eqb_spec (size (glyph f g)) 0) as [Z0|NZ].
  - exists ([] :: bs). split; [reflexivity|]. constructor; [|exact F]. assert (X : glyph f g = []) by (unfold size in Z0; destruct (glyph f g); [reflexivity|cbn [length] in Z0; lia]). split; [rewrite X; reflexivity|]. unfold renumbered. rewrite X. reflexivity.
  - pose proof (size_nonneg (glyph f g)). rewrite rd_ok by lia. cbn [bind]. rewrite <- GS. destruct (compound (glyph f g)) eqn:C.
    + pose proof ord_count. pose proof (count16 f V). destruct (renumber_ok f ord g (fix_of fx g) C (FX g (proj1 (KO g) Ig) C) ltac:(lia)) as (b & EB & SB & RB). rewrite EB. cbn [bind]. exists (b :: bs). split; [reflexivity|]. constructor; [split; assumption|exact F].
    + cbn [bind]. exists (glyph f g :: bs). split; [reflexivity|]. constructor; [|exact F]. split; [reflexivity|]. unfold renumbered. rewrite C. reflexivity.
Qed.
Lemma shown_total l bs : Forall2 shown l bs -> size (concat bs) = total (fun g => size (glyph f g)) l.
Proof. intros F. induction F as [|g b l bs (A & _) F IH]; [reflexivity|]. cbn [concat total]. rewrite size_app, A, IH. reflexivity. Qed.
Lemma all_total n : Z.of_nat n <= count -> total (fun g => size (glyph f g)) (map Z.of_nat (seq 0 n)) = loca f (Z.of_nat n) - loca f 0.
Proof.
  induction n as [|n IH]; intros L; [change (Z.of_nat 0) with 0; cbn [seq map total]; lia|]. rewrite seq_S, map_app, total_app, IH by lia. cbn [map total]. destruct (glyph_place f V (Z.of_nat n) ltac:(lia)) as (_ & _ & _ & SZ). cbn [Nat.add]. rewrite SZ. replace (Z.of_nat (S n)) with (Z.of_nat n + 1) by lia. lia.
Qed.
Lemma glyf_total bs : Forall2 shown ord bs -> size (concat bs) <= loca f count.
Proof.
  intros F. rewrite (shown_total _ _ F). pose proof (v_count f V). apply Z.le_trans with (total (fun g => size (glyph f g)) (map Z.of_nat (seq 0 (Z.to_nat count)))).
  - apply total_le; [exact NO| |intros x _; apply size_nonneg]. intros g I. pose proof (ord_range g I). apply in_map_iff. exists (Z.to_nat g). split; [lia|]. apply in_seq. lia.
  - rewrite all_total by lia. rewrite Z2Nat.id by lia. pose proof (loca_range f V 0 ltac:(lia)). lia.
Qed.
Lemma loca_count : loca f count < 2 ^ 28 /\ (long_loca f = false -> loca f count < 2 ^ 17).
Proof.
  pose proof (v_glyf f V). pose proof (v_size f V). destruct (glyf_table f V) as (n & _ & A & B & C & D). split; [lia|]. intros L. unfold loca. rewrite L. pose proof (at16_range (table f (bs "loca")) (2 * count) (bytes_table f _ (v_bytes f V))). lia.
Qed.
Lemma glyph_even g : long_loca f = false -> 0 <= g < count -> size (glyph f g) mod 2 = 0.
Proof. intros L R. destruct (glyph_place f V g R) as (_ & _ & _ & ->). unfold loca. rewrite L. rewrite <- Z.mul_sub_distr_l, Z.mul_comm. apply Z_mod_mult. Qed.
(** *** loca *)
Definition loca_at (long : bool) (b : list Z) (i : Z) : Z := if long then at32 b (4 * i) else 2 * at16 b (2 * i).
Lemma loca_first long at_ r : 0 <= at_ -> at_ < 2 ^ 28 -> (long = false -> at_ < 2 ^ 17 /\ at_ mod 2 = 0) -> loca_at long ((if long then be32 at_ else be16 (at_ / 2 mod 2 ^ 16)) ++ r) 0 = at_.
Proof.
  intros P B S. unfold loca_at. change (4 * 0) with 0. change (2 * 0) with 0. destruct long; [apply at32_be; lia|]. destruct (S eq_refl) as [S1 S2]. rewrite at16_be by (apply Z.mod_pos_bound; lia). rewrite Z.mod_small by (Z.div_mod_to_equations; lia). Z.div_mod_to_equations. lia.
Qed.
Lemma loca_size long l : forall at_, size (write_loca long ld at_ l) = (if long then 4 else 2) * (size l + 1).
Proof.
  unfold size. induction l as [|g l IH]; intros at_; cbn [write_loca]; rewrite app_length; [destruct long; reflexivity|]. rewrite Nat2Z.inj_add, IH. cbn [length]. destruct long; [change (length (be32 at_)) with 4%nat|change (length (be16 (at_ / 2 mod 2 ^ 16))) with 2%nat]; lia.
Qed.
Lemma loca_read l bs : Forall2 shown l bs -> incl l ord -> forall at_ i, 0 <= at_ -> at_ + size (concat bs) < 2 ^ 28 -> (long_loca f = false -> at_ + size (concat bs) < 2 ^ 17 /\ at_ mod 2 = 0) -> (i <= length l)%nat ->
  loca_at (long_loca f) (write_loca (long_loca f) ld at_ l) (Z.of_nat i) = at_ + size (concat (firstn i bs)).
Proof.
  intros F. induction F as [|g b l bs (A & _) F IH]; intros I at_ i P B S L.
  - destruct i as [|i]; [|cbn [length] in L; lia]. cbn [write_loca]. cbn [concat firstn] in *. change (size []) with 0 in *. change (Z.of_nat 0) with 0. rewrite loca_first; [lia|lia|lia|intros L0; destruct (S L0); split; [lia|assumption]].
  - assert (Ig : In g ord) by (apply I; left; reflexivity). cbn [write_loca]. rewrite (data_ok g Ig). cbn [gd_len data]. cbn [concat] in B, S. rewrite size_app in B, S. pose proof (size_nonneg b). pose proof (size_nonneg (concat bs)). unfold u32. rewrite (Z.mod_small (at_ + _)) by lia. destruct i as [|i].
    + cbn [firstn concat]. change (size []) with 0. change (Z.of_nat 0) with 0. rewrite loca_first; [lia|lia|lia|intros L0; destruct (S L0); split; [lia|assumption]].
    + cbn [firstn concat]. rewrite size_app, A. assert (I' : incl l ord) by (intros x Ix; apply I; right; exact Ix). cbn [length] in L. specialize (IH I' (at_ + size (glyph f g)) i ltac:(lia) ltac:(lia)).
      assert (IHL : loca_at (long_loca f) (write_loca (long_loca f) ld (at_ + size (glyph f g)) l) (Z.of_nat i) = at_ + size (glyph f g) + size (concat (firstn i bs))).
      { apply IH; [|lia]. intros L0. destruct (S L0) as [S1 S2]. split; [lia|]. pose proof (glyph_even g L0 (ord_range g Ig)) as GE. rewrite Z.add_mod, S2, GE by lia. reflexivity. }
      clear IH. unfold loca_at in *. replace (Z.of_nat (Datatypes.S i)) with (Z.of_nat i + 1) by lia. destruct (long_loca f).
      * replace (4 * (Z.of_nat i + 1)) with (size (be32 at_) + 4 * Z.of_nat i) by (change (size (be32 at_)) with 4; lia). rewrite at32_after by lia. lia.
      * replace (2 * (Z.of_nat i + 1)) with (size (be16 (at_ / 2 mod 2 ^ 16)) + 2 * Z.of_nat i) by (change (size (be16 (at_ / 2 mod 2 ^ 16))) with 2; lia). rewrite at16_after by lia. lia.
Qed.
(** *** hmtx *)
Notation hmtx := (table f (bs "hmtx")).
Definition metric (g : Z) : list Z := slice hmtx (4 * g) 4.
Definition side (g : Z) : list Z := slice hmtx (4 * hcount f + 2 * (g - hcount f)) 2.
Lemma metrics_ok e l : In e (dir f) -> named (bs "hmtx") e = true -> incl l ord -> write_metrics f (hcount f) (en_off e) l = Ok (concat (map metric (fulls l)), concat (map side (rests l))).
Proof.
  intros IE NE. pose proof (find_once _ _ e (v_once f V) IE NE) as FE. assert (T : hmtx = slice f (en_off e) (en_len e)) by (unfold table; rewrite FE; reflexivity). pose proof (dir_range f e (v_bytes f V) IE) as [R1 R2]. pose proof (v_inside f V e IE). pose proof (v_hmtx f V) as VH. rewrite T, size_slice in VH by lia. pose proof (v_size f V).
  induction l as [|g l IH]; intros I; [reflexivity|]. assert (Ig : In g ord) by (apply I; left; reflexivity). pose proof (ord_range g Ig). pose proof (v_count f V). cbn [write_metrics filter]. specialize (IH (fun x Ix => I x (or_intror Ix))). destruct (Z.ltb_spec g (hcount f)); cbn [negb].
  - unfold u32. rewrite Z.mod_small by lia. rewrite rd_ok by lia. cbn [bind]. rewrite IH. cbn [bind map concat]. unfold metric at 2. rewrite T, slice_slice by lia. reflexivity.
  - unfold u32. rewrite Z.mod_small by lia. rewrite rd_ok by lia. cbn [bind]. rewrite IH. cbn [bind map concat]. unfold side at 2. rewrite T, slice_slice by lia. rewrite Z.add_assoc. reflexivity.
Qed.
Lemma in_full g : In g (fulls ord) -> 0 <= g < hcount f.
Proof. intros I. apply filter_In in I as [I L]. pose proof (ord_range g I). lia. Qed.
Lemma in_rest g : In g (rests ord) -> hcount f <= g < count.
Proof. intros I. apply filter_In in I as [I L]. pose proof (ord_range g I). rewrite negb_true_iff in L. lia. Qed.
Lemma metric_size g : In g (fulls ord) -> size (metric g) = 4.
Proof. intros Ig. pose proof (in_full g Ig). pose proof (v_count f V). pose proof (v_hmtx f V). unfold metric. apply size_slice; lia. Qed.
Lemma side_size g : In g (rests ord) -> size (side g) = 2.
Proof. intros Ig. pose proof (in_rest g Ig). pose proof (v_count f V). pose proof (v_hmtx f V). unfold side. apply size_slice; lia. Qed.
Lemma metrics_read l : incl l (fulls ord) -> forall i g k y, nth_error l i = Some g -> 0 <= k -> k + 2 <= 4 -> at16 (concat (map metric l) ++ y) (4 * Z.of_nat i + k) = at16 hmtx (4 * g + k).
Proof.
  induction l as [|x l IH]; intros I i g k y E K1 K2; [destruct i; discriminate|]. assert (Ix : In x (fulls ord)) by (apply I; left; reflexivity). pose proof (metric_size x Ix) as MS. pose proof (in_full x Ix). cbn [map concat]. rewrite <- app_assoc. destruct i as [|i].
  - injection E as ->. unfold at16. cbn [Z.of_nat Z.mul Z.add]. rewrite !byte_app_l by lia. unfold metric. rewrite !byte_slice by lia. rewrite Z.add_assoc. reflexivity.
  - cbn [nth_error] in E. replace (4 * Z.of_nat (S i) + k) with (size (metric x) + (4 * Z.of_nat i + k)) by lia. rewrite at16_after by lia. apply IH; [intros z Iz; apply I; right; exact Iz|exact E|exact K1|exact K2].
Qed.
Lemma sides_read l : incl l (rests ord) -> forall i g, nth_error l i = Some g -> at16 (concat (map side l)) (2 * Z.of_nat i) = at16 hmtx (4 * hcount f + 2 * (g - hcount f)).
Proof.
  induction l as [|x l IH]; intros I i g E; [destruct i; discriminate|]. assert (Ix : In x (rests ord)) by (apply I; left; reflexivity). pose proof (side_size x Ix) as MS. pose proof (in_rest x Ix). pose proof (v_count f V). cbn [map concat]. destruct i as [|i].
  - injection E as ->. unfold at16. cbn [Z.of_nat Z.mul Z.add]. rewrite !byte_app_l by lia. unfold side. rewrite !byte_slice by lia. rewrite Z.add_0_r. reflexivity.
  - cbn [nth_error] in E. replace (2 * Z.of_nat (S i)) with (size (side x) + 2 * Z.of_nat i) by lia. rewrite at16_after by lia. apply IH; [intros z Iz; apply I; right; exact Iz|exact E].
Qed.
Lemma metrics_size l : incl l (fulls ord) -> size (concat (map metric l)) = 4 * size l.
Proof. induction l as [|x l IH]; intros I; [reflexivity|]. cbn [map concat]. rewrite size_app, (metric_size x), IH; [unfold size; cbn [length]; lia|intros y Iy; apply I; right; exact Iy|apply I; left; reflexivity]. Qed.
Lemma sides_size l : incl l (rests ord) -> size (concat (map side l)) = 2 * size l.
Proof. induction l as [|x l IH]; intros I; [reflexivity|]. cbn [map concat]. rewrite size_app, (side_size x), IH; [unfold size; cbn [length]; lia|intros y Iy; apply I; right; exact Iy|apply I; left; reflexivity]. Qed.
Lemma rest_few : size (rests ord) <= size ord.
Proof. unfold size. apply Nat2Z.inj_le. clear. induction ord as [|k l IH]; cbn [filter length]; [lia|]. destruct (k <? hcount f); cbn [length negb]; lia. Qed.

(** *** Each table *)
Record content (bs_ : list (list Z)) (t : ttable) (c : list Z) : Prop := {
  c_written : write_table f fn ld t = Ok c;
  c_size : size c <= 2 ^ 28;
  c_head : tt_tag t = t_head -> size c = size (table f (bs "head")) /\ forall o, 0 <= o -> o < 4 \/ 8 <= o -> byte c o = byte (table f (bs "head")) o;
  c_maxp : tt_tag t = t_maxp -> at16 c 4 = size ord;
  c_hhea : tt_tag t = t_hhea -> at16 c 34 = size (fulls ord);
  c_glyf : tt_tag t = t_glyf -> c = concat bs_;
  c_loca : tt_tag t = t_loca -> c = write_loca (long_loca f) ld 0 ord;
  c_hmtx : tt_tag t = t_hmtx -> c = concat (map metric (fulls ord)) ++ concat (map side (rests ord));
  c_same : forall s, In s [bs "cvt "; bs "fpgm"; bs "prep"] -> tt_tag t = word s 0 -> c = table f s }.
Ltac other T := let X := fresh in intros X; rewrite T in X; unfold t_head, t_hhea, t_loca, t_maxp, t_glyf, t_hmtx, t_post in X; discriminate X.
Ltac none T := let s := fresh in let I := fresh in let X := fresh in intros s I X; rewrite T in X; cbn [In] in I; destruct I as [<-|[<-|[<-|[]]]]; vm_compute in X; discriminate X.
Lemma content_ok bs_ t : Forall2 shown ord bs_ -> write_glyphs f ld ord = Ok (concat bs_) -> In t (kept_all (dir f)) -> exists c, content bs_ t c.
Proof.
  intros SH WG I. destruct (kept_in f _ t I) as (e & IE & W & ET). pose proof (dir_range f e (v_bytes f V) IE) as [R1 R2]. pose proof (v_inside f V e IE) as IN. pose proof (v_size f V) as VS. pose proof ord_count as OC. pose proof (count16 f V) as C16. pose proof (size_nonneg ord).
  assert (TAG : tt_tag t = en_tag e) by (rewrite ET; reflexivity). assert (OFF : tt_off t = en_off e) by (rewrite ET; reflexivity). assert (LEN : tt_len t = if en_tag e =? t_post then 32 else en_len e) by (rewrite ET; reflexivity).
  assert (TAB : forall s, tt_tag t = word s 0 -> word s 0 <> t_post -> rd (tt_len t) f (tt_off t) = Ok (table f s) /\ size (table f s) <= 2 ^ 28).
  { intros s T NP. assert (N : named s e = true) by (unfold named; rewrite <- TAG, T; apply Z.eqb_refl). pose proof (find_once s _ e (v_once f V) IE N) as FE. rewrite LEN, OFF. rewrite <- TAG, T. destruct (Z.eqb_spec (word s 0) t_post); [contradiction|]. rewrite rd_ok by lia. unfold table. rewrite FE. split; [reflexivity|]. rewrite size_slice by lia. lia. }
  destruct (Z.eq_dec (tt_tag t) t_head) as [T|N1].
  { destruct (TAB (bs "head") T ltac:(discriminate)) as [E S]. pose proof (v_head f V). destruct (patch_ok (table f (bs "head")) 4 (be32 0)) as (c & EP & SP & OP & _); [lia|change (size (be32 0)) with 4; lia|]. change (4 + size (be32 0)) with 8 in OP. exists c.
    constructor; try other T; try none T; [unfold write_table; rewrite T, E; exact EP|lia|]. intros _. split; [exact SP|exact OP]. }
  destruct (Z.eq_dec (tt_tag t) t_maxp) as [T|N2].
  { destruct (TAB (bs "maxp") T ltac:(discriminate)) as [E S]. pose proof (v_maxp f V). set (v := u16 (Z.of_nat (length m))). destruct (patch_ok (table f (bs "maxp")) 4 (be16 v)) as (c & EP & SP & OP & IP & _); [lia|change (size (be16 v)) with 2; lia|]. change (4 + size (be16 v)) with 6 in *. exists c.
    constructor; try other T; try none T; [unfold write_table; rewrite T, E; exact EP|lia|]. intros _. rewrite ord_length in *. assert (EV : v = Z.of_nat (length m)) by (unfold v, u16; apply Z.mod_small; lia). rewrite <- EV. apply be16_value; [lia|rewrite IP by lia; reflexivity|rewrite IP by lia; reflexivity]. }
  destruct (Z.eq_dec (tt_tag t) t_hhea) as [T|N3].
  { destruct (TAB (bs "hhea") T ltac:(discriminate)) as [E S]. pose proof (v_hhea f V). set (v := low (hcount f) m). destruct (patch_ok (table f (bs "hhea")) 34 (be16 v)) as (c & EP & SP & OP & IP & _); [lia|change (size (be16 v)) with 2; lia|]. change (34 + size (be16 v)) with 36 in *. exists c.
    constructor; try other T; try none T; [unfold write_table; rewrite T, E; exact EP|lia|]. intros _. assert (EV : v = size (fulls ord)) by apply ord_low. rewrite <- EV. apply be16_value; [pose proof full_few; unfold size in *; lia|rewrite IP by lia; reflexivity|rewrite IP by lia; reflexivity]. }
  destruct (Z.eq_dec (tt_tag t) t_post) as [T|N4].
  { assert (L : 32 <= en_len e). { unfold wanted in W. rewrite orb_true_iff, andb_true_iff in W. destruct W as [W|[_ W]]; [|apply Z.leb_le; exact W]. apply existsb_exists in W as (s & Is & Es). unfold named in Es. apply Z.eqb_eq in Es. rewrite <- TAG, T in Es. cbn [In] in Is. destruct Is as [<-|[<-|[<-|[<-|[<-|[<-|[<-|[<-|[<-|[]]]]]]]]]]; vm_compute in Es; discriminate Es. }
    assert (E : rd (tt_len t) f (tt_off t) = Ok (slice f (en_off e) 32)) by (rewrite LEN, OFF, <- TAG, T; apply rd_ok; lia). assert (S : size (slice f (en_off e) 32) = 32) by (apply size_slice; lia).
    destruct (patch_ok (slice f (en_off e) 32) 0 (be32 196608)) as (c1 & EP & SP & _); [lia|rewrite S; vm_compute; discriminate|]. destruct (patch_ok c1 16 (repeat 0 16)) as (c & EP2 & SP2 & _); [lia|rewrite SP, S; vm_compute; discriminate|]. exists c.
    constructor; try other T; try none T; [unfold write_table; rewrite T, E; cbn [bind Z.eqb Pos.eqb t_post t_head t_maxp t_hhea]; rewrite EP; exact EP2|lia]. }
  destruct (Z.eq_dec (tt_tag t) t_glyf) as [T|N5].
  { exists (concat bs_). constructor; try other T; try none T; [unfold write_table; rewrite T; exact WG|pose proof (glyf_total _ SH); pose proof loca_count; lia|reflexivity]. }
  destruct (Z.eq_dec (tt_tag t) t_loca) as [T|N6].
  { exists (write_loca (long_loca f) ld 0 ord). constructor; try other T; try none T; [unfold write_table; rewrite T; reflexivity|rewrite loca_size; destruct (long_loca f); lia|reflexivity]. }
  destruct (Z.eq_dec (tt_tag t) t_hmtx) as [T|N7].
  { exists (concat (map metric (fulls ord)) ++ concat (map side (rests ord))). constructor; try other T; try none T; [|pose proof full_few; pose proof rest_few; rewrite size_app, metrics_size, sides_size by apply incl_refl; lia|reflexivity]. unfold write_table. rewrite T. transitivity (do off <- table_off (kept_all (dir f)) t_hmtx; do (x, y) <- write_metrics f (hcount f) off ord; Ok (x ++ y)); [reflexivity|].
    assert (N : named (bs "hmtx") e = true) by (unfold named; rewrite <- TAG, T; reflexivity). pose proof (off_kept _ _ _ (v_once f V) IE N ltac:(vm_compute; tauto)) as O. change (tag_of (bs "hmtx")) with t_hmtx in O. rewrite O. cbn [bind]. rewrite (metrics_ok e ord IE N (incl_refl _)). reflexivity. }
  destruct (existsb (fun s => tt_tag t =? word s 0) [bs "cvt "; bs "fpgm"; bs "prep"]) eqn:X.
  - apply existsb_exists in X as (s & Is & Es). apply Z.eqb_eq in Es. destruct (TAB s Es) as [E S]; [cbn [In] in Is; destruct Is as [<-|[<-|[<-|[]]]]; vm_compute; discriminate|]. exists (table f s).
    constructor; try contradiction; [|exact S|].
    + unfold write_table. rewrite (proj2 (Z.eqb_neq _ _) N1), (proj2 (Z.eqb_neq _ _) N2), (proj2 (Z.eqb_neq _ _) N3), (proj2 (Z.eqb_neq _ _) N4), (proj2 (Z.eqb_neq _ _) N5), (proj2 (Z.eqb_neq _ _) N6), (proj2 (Z.eqb_neq _ _) N7). exact E.
    + intros s' _ Es'. unfold table. assert (NN : forall e', named s e' = named s' e') by (intros e'; unfold named; rewrite <- Es, <- Es'; reflexivity). assert (FF : forall l, find (named s) l = find (named s') l) by (intros l; induction l as [|x l IH]; [reflexivity|cbn [find]; rewrite NN, IH; reflexivity]). rewrite FF. reflexivity.
  - exfalso. unfold wanted in W. apply orb_true_iff in W as [W|W].
    + apply existsb_exists in W as (s & Is & Es). unfold named in Es. rewrite <- TAG in Es. cbn [existsb] in X. apply orb_false_iff in X as [X1 X]. apply orb_false_iff in X as [X2 X]. apply orb_false_iff in X as [X3 _]. cbn [In] in Is. apply Z.eqb_eq in Es. apply Z.eqb_neq in X1, X2, X3. destruct Is as [<-|[<-|[<-|[<-|[<-|[<-|[<-|[<-|[<-|[]]]]]]]]]]; contradiction.
    + apply andb_true_iff in W as [Es _]. unfold named in Es. rewrite <- TAG in Es. apply Z.eqb_eq in Es. contradiction.
Qed.

(** ** The file *)
Definition row (bs_ : list (list Z)) (t : ttable) (x : item) : Prop := i_tag x = tt_tag t /\ i_sum x = checksum (i_body x) /\ content bs_ t (i_body x).
Lemma all_written bs_ ts : (forall t, In t ts -> exists c, content bs_ t c) -> exists l, Forall2 (row bs_) ts l /\ forall off, write_all f fn ld off ts = Ok (dirb off l, bodies l, head_at off l).
Proof.
  induction ts as [|t ts IH]; intros H; [exists []; split; [constructor|reflexivity]|]. destruct (H t (or_introl eq_refl)) as (c & C). destruct IH as (l & F & E); [intros t' I; apply H; right; exact I|]. exists ((tt_tag t, checksum c, c) :: l). split.
  - constructor; [|exact F]. split; [reflexivity|]. split; [reflexivity|exact C].
  - intros off. cbn [write_all]. rewrite (c_written _ _ _ C). cbn [bind]. rewrite E. cbn [bind dirb bodies head_at i_tag i_sum i_body fst snd]. reflexivity.
Qed.
Lemma row_found bs_ ts l s x : Forall2 (row bs_) ts l -> found l s = Some x -> exists t, In t ts /\ row bs_ t x /\ tt_tag t = word s 0.
Proof.
  intros F. induction F as [|t y ts l R F IH]; intros E; [discriminate|]. unfold found in *. cbn [find] in E. destruct (Z.eqb_spec (i_tag y) (word s 0)) as [T|T].
  - injection E as <-. exists t. split; [left; reflexivity|]. split; [exact R|]. rewrite <- (proj1 R). exact T.
  - destruct (IH E) as (t' & A & B). exists t'. split; [right; exact A|exact B].
Qed.
Lemma row_some bs_ ts l s : Forall2 (row bs_) ts l -> In (word s 0) (map tt_tag ts) -> exists x, found l s = Some x.
Proof.
  intros F. induction F as [|t y ts l R F IH]; intros I; [contradiction|]. unfold found in *. cbn [find]. destruct (Z.eqb_spec (i_tag y) (word s 0)) as [T|T]; [exists y; reflexivity|]. cbn [map In] in I. destruct I as [I|I]; [exfalso; apply T; rewrite (proj1 R); exact I|exact (IH I)].
Qed.
Lemma bodies_size bs_ ts l : Forall2 (row bs_) ts l -> size (bodies l) <= (2 ^ 28 + 4) * Z.of_nat (length l).
Proof. intros F. induction F as [|t y ts l (_ & _ & C) F IH]; [vm_compute; discriminate|]. cbn [bodies length]. rewrite size_app. pose proof (padded_size (i_body y)) as (_ & P & _). pose proof (c_size _ _ _ C). lia. Qed.
Lemma written : In 0 ord -> exists out, write_tables f fn ld = Ok out /\ shows_outlines f ord out /\ (full_first f ord -> shows_metrics f ord out) /\ directory 4 f out.
Proof.
  intros I0. destruct (glyphs_ok ord (incl_refl _)) as (bs_ & WG & SH). set (ts := kept_all (dir f)).
  assert (ALL : forall t, In t ts -> exists c, content bs_ t c) by (intros t It; exact (content_ok bs_ t SH WG It)). destruct (all_written bs_ ts ALL) as (l & F & WA).
  assert (LL : length l = length ts) by (clear - F; induction F; cbn [length]; congruence). pose proof (kept_few f V) as K10. fold ts in K10. destruct (header_ok (length ts) K10) as (h & EH & SH12 & HN).
  assert (TG : map i_tag l = map tt_tag ts) by (clear - F; induction F as [|t x ts l (A & _) F IH]; [reflexivity|cbn [map]; f_equal; assumption]). pose proof (kept_tags f (dir f)) as KT. fold ts in KT.
  assert (ND : NoDup (map i_tag l)) by (rewrite TG, KT; apply filter_nodup, (v_once f V)).
  assert (REQ : forall s, In s [bs "head"; bs "hhea"; bs "loca"; bs "maxp"; bs "glyf"; bs "hmtx"] -> exists x t, found l s = Some x /\ row bs_ t x /\ tt_tag t = word s 0).
  { intros s Is. destruct (v_tables f V s Is) as (e & IE & NE). assert (X : In (word s 0) (map tt_tag ts)). { rewrite KT. apply in_map_iff. exists e. unfold named in NE. split; [apply Z.eqb_eq; exact NE|]. apply filter_In. split; [exact IE|]. unfold wanted. apply orb_true_iff. left. apply existsb_exists. exists s. split; [cbn [In] in *; tauto|exact NE]. }
    destruct (row_some _ _ _ _ F X) as (x & E). destruct (row_found _ _ _ _ _ F E) as (t & _ & R & T). exists x, t. split; [exact E|]. split; assumption. }
  assert (HS : Forall (fun x => i_tag x = t_head -> 8 <= size (i_body x)) l).
  { clear - F V. induction F as [|t x ts l (A & _ & C) F IH]; constructor; [|exact IH]. intros X. rewrite A in X. destruct (c_head _ _ _ C X) as [-> _]. pose proof (v_head f V). lia. }
  assert (HD : exists o, head_at (12 + 16 * Z.of_nat (length ts)) l = Some o).
  { destruct (REQ (bs "head")) as (x & t & E & R & T); [left; reflexivity|]. assert (X : In t_head (map i_tag l)). { apply find_some in E as [E1 E2]. apply Z.eqb_eq in E2. change t_head with (word (bs "head") 0). rewrite <- E2. apply in_map. exact E1. }
    clear - X. generalize (12 + 16 * Z.of_nat (length ts)). induction l as [|y r IH]; intros off; [contradiction|]. cbn [map In] in X. cbn [head_at]. destruct (head_at _ r) as [o|] eqn:E; [exists o; reflexivity|]. destruct (Z.eqb_spec (i_tag y) t_head); [exists off; reflexivity|]. destruct X as [X|X]; [contradiction|]. destruct (IH X (off + size (padded (i_body y)))) as (o & E'). congruence. }
  destruct HD as (o & HO). unfold write_tables. cbn [fn_tables the_font]. fold ts. rewrite EH. cbn [bind]. rewrite WA. cbn [bind]. rewrite HO. set (w := be32 _). assert (W4 : size w = 4) by reflexivity. rewrite app_assoc.
  assert (SP : size (h ++ dirb (12 + 16 * Z.of_nat (length ts)) l) = 12 + 16 * Z.of_nat (length ts)) by (rewrite size_app, dirb_size, LL, SH12; lia). rewrite <- SP in HO at 1. rewrite (patch_head w l W4 ND HS _ _ HO). eexists. split; [reflexivity|].
  set (l' := map (upd w) l). destruct (upd_dirb w l W4 HS (12 + 16 * Z.of_nat (length ts))) as [UD UB_]. fold l' in UD, UB_. rewrite <- UD, <- app_assoc. assert (LL' : length l' = length ts) by (unfold l'; rewrite map_length; exact LL). rewrite <- LL'. rewrite <- LL' in HN, K10.
  pose proof (bodies_size _ _ _ F) as BS. assert (HB : 12 + 16 * Z.of_nat (length l') + size (bodies l') < 2 ^ 32) by (rewrite UB_; rewrite LL, <- LL' in BS; lia).
  assert (HT : Forall (fun x => in_word (i_tag x) /\ in_word (i_sum x)) l').
  { apply Forall_forall. intros x Ix. unfold l' in Ix. apply in_map_iff in Ix as (y & <- & Iy). assert (IS : i_tag (upd w y) = i_tag y /\ i_sum (upd w y) = i_sum y) by (unfold upd; destruct (_ =? _); split; reflexivity). destruct IS as [-> ->]. split.
    - assert (X : In (i_tag y) (map en_tag (filter (wanted f) (dir f)))) by (rewrite <- KT, <- TG; apply in_map; exact Iy). apply in_map_iff in X as (e & <- & X). apply filter_In in X as [X _]. unfold dir in X. apply in_map_iff in X as (i & <- & _). apply (entry_range f i (v_bytes f V)).
    - assert (X : i_sum y = checksum (i_body y)) by (clear - F Iy; induction F as [|t x ts l (_ & A & _) F IH]; [contradiction|destruct Iy as [<-|Iy]; [exact A|exact (IH Iy)]]). rewrite X. unfold checksum, in_word, u32. apply Z.mod_pos_bound. lia. }
  pose proof (file_table h l' SH12 HN HB HT) as FT. pose proof (file_tags h l' SH12 HN HB HT) as FG. pose proof (file_inside h l' SH12 HN HB HT) as FI. set (out := h ++ dirb (12 + 16 * Z.of_nat (length l')) l' ++ bodies l') in *.
  assert (TBL : forall s x, found l s = Some x -> word s 0 <> t_head -> table out s = i_body x).
  { intros s x E NH. rewrite FT. unfold l'. rewrite upd_found, E. cbn [option_map]. unfold upd. apply find_some in E as [_ E]. apply Z.eqb_eq in E. rewrite E. destruct (Z.eqb_spec (word s 0) t_head); [contradiction|reflexivity]. }
  assert (HEAD : forall q, 0 <= q < size (table f (bs "head")) -> q < 4 \/ 8 <= q -> byte (table out (bs "head")) q = byte (table f (bs "head")) q).
  { intros q Q H. destruct (REQ (bs "head")) as (x & t & E & (_ & _ & C) & T); [cbn; tauto|]. destruct (c_head _ _ _ C T) as [C1 C2]. rewrite FT. unfold l'. rewrite upd_found, E. cbn [option_map]. unfold upd. apply find_some in E as [_ E]. apply Z.eqb_eq in E. rewrite E. change (word (bs "head") 0) with t_head. rewrite Z.eqb_refl. cbn [i_body snd]. pose proof (v_head f V). change (snd x) with (i_body x). rewrite put4_byte by lia. apply C2; lia. }
  assert (LONG : long_loca out = long_loca f). { unfold long_loca, at16. pose proof (v_head f V). rewrite !HEAD by lia. reflexivity. }
  assert (COUNT : glyph_count out = size ord). { destruct (REQ (bs "maxp")) as (x & t & E & (_ & _ & C) & T); [cbn; tauto|]. unfold glyph_count. rewrite (TBL _ _ E ltac:(discriminate)). exact (c_maxp _ _ _ C T). }
  assert (HCNT : hcount out = size (fulls ord)). { destruct (REQ (bs "hhea")) as (x & t & E & (_ & _ & C) & T); [cbn; tauto|]. unfold hcount. rewrite (TBL _ _ E ltac:(discriminate)). exact (c_hhea _ _ _ C T). }
  assert (HM : table out (bs "hmtx") = concat (map metric (fulls ord)) ++ concat (map side (rests ord))). { destruct (REQ (bs "hmtx")) as (x & t & E & (_ & _ & C) & T); [cbn; tauto|]. rewrite (TBL _ _ E ltac:(discriminate)). exact (c_hmtx _ _ _ C T). }
  assert (GLYF : table out (bs "glyf") = concat bs_). { destruct (REQ (bs "glyf")) as (x & t & E & (_ & _ & C) & T); [cbn; tauto|]. rewrite (TBL _ _ E ltac:(discriminate)). exact (c_glyf _ _ _ C T). }
  assert (LOCA : table out (bs "loca") = write_loca (long_loca f) ld 0 ord). { destruct (REQ (bs "loca")) as (x & t & E & (_ & _ & C) & T); [cbn; tauto|]. rewrite (TBL _ _ E ltac:(discriminate)). exact (c_loca _ _ _ C T). }
  pose proof (glyf_total _ SH) as GT. pose proof loca_count as [LC1 LC2].
  assert (LAT : forall i, (i <= length ord)%nat -> loca out (Z.of_nat i) = size (concat (firstn i bs_))).
  { intros i Li. unfold loca. rewrite LONG, LOCA. pose proof (loca_read ord bs_ SH (incl_refl _) 0 i ltac:(lia) ltac:(lia)) as LR. unfold loca_at in LR. rewrite LR; [lia|intros L0; specialize (LC2 L0); split; [lia|reflexivity]|exact Li]. }
  split; [split|split; [|constructor]].
  - exact COUNT.
  - intros i g E. assert (Li : (i < length ord)%nat) by (apply nth_error_Some; congruence). assert (XB : exists b, nth_error bs_ i = Some b /\ shown g b). { clear - SH E. revert i E. induction SH as [|g' b l0 bs0 S SH IH]; intros i E; [destruct i; discriminate|]. destruct i as [|i]; [injection E as ->; exists b; split; [reflexivity|exact S]|exact (IH i E)]. }
    destruct XB as (b & EB & SB & RB). unfold glyph at 2. rewrite GLYF, LAT by lia. replace (Z.of_nat i + 1) with (Z.of_nat (S i)) by lia. rewrite LAT by lia. destruct (nth_error_firstn_concat bs_ i b EB) as [_ E2]. rewrite E2, size_app. replace (size (concat (firstn i bs_)) + size b - size (concat (firstn i bs_))) with (size b) by lia. rewrite (slice_concat bs_ i b EB). exact RB.
  - intros FF i g E. unfold full_first, full in FF. rewrite FF in E. pose proof (v_count f V) as VC. assert (F0 : In 0 (fulls ord)) by (apply filter_In; split; [exact I0|lia]).
    assert (LF : (0 < length (fulls ord))%nat) by (destruct (fulls ord); [contradiction|cbn [length]; lia]). unfold bearing, advance. rewrite HCNT, HM. unfold full.
    destruct (Nat.lt_ge_cases i (length (fulls ord))) as [L|L].
    + rewrite nth_error_app1 in E by exact L. pose proof (in_full g (nth_error_In _ _ E)). assert (LZ : Z.of_nat i < size (fulls ord)) by (unfold size; lia). rewrite (proj2 (Z.ltb_lt _ _) LZ). destruct (Z.ltb_spec g (hcount f)); [|lia].
      replace (Z.min (Z.of_nat i) (size (fulls ord) - 1)) with (Z.of_nat i) by lia. replace (Z.min g (hcount f - 1)) with g by lia.
      rewrite (metrics_read (fulls ord) (incl_refl _) i g 2 _ E) by lia. split; [reflexivity|]. rewrite <- (Z.add_0_r (4 * Z.of_nat i)), <- (Z.add_0_r (4 * g)). apply metrics_read; [apply incl_refl|exact E|lia|lia].
    + rewrite nth_error_app2 in E by exact L. pose proof (in_rest g (nth_error_In _ _ E)). assert (LZ : size (fulls ord) <= Z.of_nat i) by (unfold size; lia). rewrite (proj2 (Z.ltb_ge _ _) LZ). destruct (Z.ltb_spec g (hcount f)); [lia|].
      split.
      * replace (4 * size (fulls ord) + 2 * (Z.of_nat i - size (fulls ord))) with (size (concat (map metric (fulls ord))) + 2 * Z.of_nat (i - length (fulls ord))) by (rewrite metrics_size by apply incl_refl; unfold size; lia).
        rewrite at16_after by lia. apply sides_read; [apply incl_refl|exact E].
      * pose proof (app_removelast_last 0 ltac:(intros Y; rewrite Y in LF; cbn in LF; lia) : fulls ord = removelast (fulls ord) ++ [last (fulls ord) 0]) as AL.
        assert (EL : nth_error (fulls ord) (length (fulls ord) - 1) = Some (last (fulls ord) 0)).
        { rewrite AL at 1. assert (LR : length (removelast (fulls ord)) = (length (fulls ord) - 1)%nat) by (rewrite AL at 2; rewrite app_length; cbn [length]; lia). rewrite nth_error_app2 by lia. rewrite LR, Nat.sub_diag. reflexivity. }
        pose proof (in_full _ (nth_error_In _ _ EL)). replace (Z.min (Z.of_nat i) (size (fulls ord) - 1)) with (Z.of_nat (length (fulls ord) - 1)) by (unfold size in *; lia).
        replace (Z.min (last (fulls ord) 0) (hcount f - 1)) with (last (fulls ord) 0) by lia. match goal with |- at16 _ ?a = at16 _ ?b => rewrite <- (Z.add_0_r a), <- (Z.add_0_r b) end. apply metrics_read; [apply incl_refl|exact EL|lia|lia].
  - rewrite FG. unfold l'. rewrite upd_tags, TG. exact KT.
  - exact FI.
  - intros s Is. destruct (found l s) as [x|] eqn:E.
    + destruct (row_found _ _ _ _ _ F E) as (t & _ & (_ & _ & C) & T). rewrite (TBL s x E); [exact (c_same _ _ _ C s Is T)|]. cbn [In] in Is. destruct Is as [<-|[<-|[<-|[]]]]; vm_compute; discriminate.
    + rewrite FT. unfold l'. rewrite upd_found, E. cbn [option_map]. unfold table. destruct (find (named s) (dir f)) as [e|] eqn:FE; [|reflexivity]. exfalso. apply find_some in FE as [IE NE]. assert (X : In (word s 0) (map tt_tag ts)). { rewrite KT. apply in_map_iff. exists e. unfold named in NE. split; [apply Z.eqb_eq; exact NE|]. apply filter_In. split; [exact IE|]. unfold wanted. apply orb_true_iff. left. apply existsb_exists. exists s. split; [cbn [In] in *; tauto|exact NE]. }
      destruct (row_some _ _ _ _ F X) as (x & E'). congruence.
  - exact HEAD.
Qed.
End Subset.
Theorem subset_ok f gids : valid f -> empty_ok f -> NoDup gids -> Forall (fun g => 0 < g < glyph_count f) gids ->
  exists out ord, build_font f gids = Ok out /\ firstn (S (length gids)) ord = 0 :: gids /\ NoDup ord /\ (forall g, In g ord <-> needed f gids g) /\ shows_outlines f ord out /\ (full_first f ord -> shows_metrics f ord out) /\ directory 4 f out.
Proof.
  intros V EO N R. unfold build_font. rewrite (open_ok f V). cbn [bind]. unfold load_glyphs. assert (R' : Forall (fun g => 0 <= g < glyph_count f) gids) by (eapply Forall_impl; [|exact R]; cbn beta; intros; lia). destruct (loaded_needed f V EO gids R') as (m & E & G & K). rewrite E. cbn [bind].
  assert (N0 : NoDup (0 :: gids)) by (constructor; [intros I; apply (proj1 (Forall_forall _ _) R) in I; lia|exact N]). rewrite (listed_ok gids [0] N0). change ([0] ++ gids) with (0 :: gids). destruct (order_glyphs_ok f V m (0 :: gids) G N0) as (r & fx & EO2 & NO & MO & FO & _). rewrite EO2. cbn [bind snd].
  assert (KO : forall g, In g ((0 :: gids) ++ r) <-> In g (keys m)).
  { intros g. rewrite MO, K. split.
    - intros [[<-|I]|(k & I & C & l & p & P & Ip)]; [apply N_zero|apply N_listed; exact I|]. apply K in I. exact (N_part f gids k l p g I C P Ip).
    - intros X. destruct X as [|g I|g l p c X C P Ip]; [left; left; reflexivity|left; right; exact I|right]. exists g. split; [apply K; exact X|]. split; [exact C|]. exists l, p. split; [exact P|exact Ip]. }
  destruct (written f V m ((0 :: gids) ++ r) fx G NO KO FO) as (out & EW & SG & D); [left; reflexivity|]. exists out, ((0 :: gids) ++ r). split; [exact EW|]. split; [|split; [exact NO|split; [intros g; rewrite KO; apply K|split; assumption]]].
  change (S (length gids)) with (length (0 :: gids)). rewrite firstn_app, Nat.sub_diag, firstn_all, firstn_O, app_nil_r. reflexivity.
Qed.
