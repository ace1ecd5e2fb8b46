(** Reading a valid font gives what the specification says. *)
From Coq Require Import Lia String.
From Verif Require Import Base ChainProofs TtfModel TtfSpec.
Local Open Scope Z_scope.

(** ** Numbers *)
Lemma size_len b : len b = size b. Proof. reflexivity. Qed.
Lemma size_nonneg b : 0 <= size b. Proof. unfold size. lia. Qed.
Lemma size_slice b o n : 0 <= o -> 0 <= n -> o + n <= size b -> size (slice b o n) = n.
Proof. unfold size, slice. intros A B C. rewrite firstn_length, skipn_length. lia. Qed.
Lemma nth_skipn (b : list Z) k i d : nth i (skipn k b) d = nth (k + i) b d.
Proof. revert b. induction k as [|k IH]; intros b; [reflexivity|]. destruct b; [destruct i; reflexivity|]. apply IH. Qed.
Lemma nth_firstn (b : list Z) k i d : (i < k)%nat -> nth i (firstn k b) d = nth i b d.
Proof. revert b i. induction k as [|k IH]; intros b i L; [lia|]. destruct b; [reflexivity|]. destruct i; [reflexivity|]. cbn [firstn nth]. apply IH. lia. Qed.
Lemma byte_slice b o n i : 0 <= o -> 0 <= i < n -> byte (slice b o n) i = byte b (o + i).
Proof. intros A B. unfold byte, slice. rewrite nth_firstn by lia. rewrite nth_skipn. f_equal. lia. Qed.
Lemma at16_slice b o n i : 0 <= o -> 0 <= i -> i + 2 <= n -> at16 (slice b o n) i = at16 b (o + i).
Proof. intros A B C. unfold at16. rewrite !byte_slice by lia. f_equal. f_equal. lia. Qed.
Lemma at32_slice b o n i : 0 <= o -> 0 <= i -> i + 4 <= n -> at32 (slice b o n) i = at32 b (o + i).
Proof. intros A B C. unfold at32. rewrite !at16_slice by lia. f_equal. f_equal. lia. Qed.
Lemma skip_nth (k : nat) : forall b : list Z, (k < length b)%nat -> skipn k b = nth k b 0 :: skipn (S k) b.
Proof.
  induction k as [|k IH]; intros b L; destruct b as [|c b]; cbn [length] in L; try lia; [reflexivity|]. cbn [nth]. change (skipn (S k) (c :: b)) with (skipn k b). change (skipn (S (S k)) (c :: b)) with (skipn (S k) b). apply IH. lia.
Qed.
Lemma skip_byte b o : 0 <= o < size b -> skipn (Z.to_nat o) b = byte b o :: skipn (Z.to_nat (o + 1)) b.
Proof. unfold byte, size. intros H. replace (Z.to_nat (o + 1)) with (S (Z.to_nat o)) by lia. apply skip_nth. lia. Qed.
Lemma rd_ok n f o : 0 <= n -> 0 <= o -> o + n <= size f -> rd n f o = Ok (slice f o n).
Proof. intros A B C. unfold rd. rewrite !size_len. destruct (size f <? o) eqn:E; [lia|]. destruct (size f - o <? n) eqn:E2; [lia|]. reflexivity. Qed.
Lemma slice2 f o : 0 <= o -> o + 2 <= size f -> slice f o 2 = [byte f o; byte f (o + 1)].
Proof. intros A B. unfold slice. rewrite (skip_byte f o), (skip_byte f (o + 1)) by lia. reflexivity. Qed.
Lemma slice4 f o : 0 <= o -> o + 4 <= size f -> slice f o 4 = [byte f o; byte f (o + 1); byte f (o + 2); byte f (o + 3)].
Proof. intros A B. unfold slice. rewrite (skip_byte f o), (skip_byte f (o + 1)), (skip_byte f (o + 1 + 1)), (skip_byte f (o + 1 + 1 + 1)) by lia. replace (o + 1 + 1) with (o + 2) by lia. replace (o + 2 + 1) with (o + 3) by lia. reflexivity. Qed.
Lemma rd16_ok f o : 0 <= o -> o + 2 <= size f -> rd16 f o = Ok (at16 f o).
Proof. intros A B. unfold rd16. rewrite rd_ok by lia. cbn [bind]. rewrite slice2 by lia. reflexivity. Qed.
Lemma rd32_ok f o : 0 <= o -> o + 4 <= size f -> rd32 f o = Ok (at32 f o).
Proof.
  intros A B. unfold rd32. rewrite rd_ok by lia. cbn [bind]. rewrite slice4 by lia. f_equal. unfold be_value, at32, at16. cbn [fold_left]. replace (o + 2 + 1) with (o + 3) by lia. lia.
Qed.
Lemma byte_range f o : bytes_ok f -> 0 <= byte f o < 256.
Proof. intros H. unfold byte. destruct (nth_in_or_default (Z.to_nat o) f 0) as [I|E]; [apply (proj1 (Forall_forall _ _) H) in I; exact I|rewrite E; lia]. Qed.
Lemma at16_range f o : bytes_ok f -> 0 <= at16 f o < 65536.
Proof. intros H. unfold at16. pose proof (byte_range f o H). pose proof (byte_range f (o + 1) H). lia. Qed.
Lemma at32_range f o : bytes_ok f -> 0 <= at32 f o < 2 ^ 32.
Proof. intros H. unfold at32. pose proof (at16_range f o H). pose proof (at16_range f (o + 2) H). lia. Qed.
Lemma in_firstn (x : Z) n b : In x (firstn n b) -> In x b.
Proof. intros I. rewrite <- (firstn_skipn n b). apply in_or_app. left. exact I. Qed.
Lemma in_skipn (x : Z) n b : In x (skipn n b) -> In x b.
Proof. intros I. rewrite <- (firstn_skipn n b). apply in_or_app. right. exact I. Qed.
Lemma bytes_slice b o n : bytes_ok b -> bytes_ok (slice b o n).
Proof. unfold bytes_ok. intros H. apply Forall_forall. intros x I. apply (proj1 (Forall_forall _ _) H). unfold slice in I. apply in_firstn, in_skipn in I. exact I. Qed.
Lemma bytes_table f s : bytes_ok f -> bytes_ok (table f s).
Proof. intros H. unfold table. destruct (find (named s) (dir f)); [apply bytes_slice; exact H|constructor]. Qed.

(** ** Tables *)
Definition tt_of (e : entry) : ttable := mk_tt (en_tag e) (en_off e) (en_len e).
Fixpoint kept_all (l : list entry) : list ttable := match l with [] => [] | e :: r => match kept (tt_of e) with Some t => t :: kept_all r | None => kept_all r end end.
Lemma tables_read f n : forall i, 12 + 16 * (Z.of_nat i + Z.of_nat n) <= size f -> read_tables n (Z.of_nat i) f = Ok (kept_all (map (entry_at f) (seq i n))).
Proof.
  induction n as [|n IH]; intros i H; [reflexivity|]. cbn [read_tables]. rewrite !rd32_ok by lia. cbn [bind]. replace (Z.of_nat i + 1) with (Z.of_nat (S i)) by lia. rewrite IH by lia. cbn [bind seq map kept_all]. reflexivity.
Qed.
Lemma entry_range f i : bytes_ok f -> 0 <= en_tag (entry_at f i) < 2 ^ 32 /\ 0 <= en_sum (entry_at f i) < 2 ^ 32 /\ 0 <= en_off (entry_at f i) < 2 ^ 32 /\ 0 <= en_len (entry_at f i) < 2 ^ 32.
Proof. intros H. unfold entry_at. cbn [en_tag en_sum en_off en_len]. repeat split; apply at32_range; exact H. Qed.
Lemma dir_range f e : bytes_ok f -> In e (dir f) -> 0 <= en_off e /\ 0 <= en_len e.
Proof. intros B I. unfold dir in I. apply in_map_iff in I as (i & <- & _). pose proof (entry_range f i B). lia. Qed.
(** The table of a name is that of the only entry with the name *)
Lemma find_once s l e : NoDup (map en_tag l) -> In e l -> named s e = true -> find (named s) l = Some e.
Proof.
  induction l as [|x l IH]; intros N I E; [contradiction|]. cbn [map] in N. apply NoDup_cons_iff in N as [NI N]. cbn [find]. destruct I as [<-|I]; [rewrite E; reflexivity|].
  destruct (named s x) eqn:X; [|apply IH; assumption]. exfalso. apply NI. unfold named in *. apply Z.eqb_eq in X. apply Z.eqb_eq in E. rewrite X, <- E. apply in_map. exact I.
Qed.
Definition tag_of (s : list Z) : Z := word s 0.
Lemma off_kept l s e : NoDup (map en_tag l) -> In e l -> named s e = true -> In (tag_of s) (required ++ [t_cvt; t_fpgm; t_prep]) -> table_off (kept_all l) (tag_of s) = Ok (en_off e).
Proof.
  intros N I E R. unfold named in E. apply Z.eqb_eq in E. fold (tag_of s) in E. induction l as [|x l IH]; [contradiction|]. cbn [map] in N. apply NoDup_cons_iff in N as [NI N]. cbn [kept_all].
  assert (K : forall y, en_tag y = tag_of s -> kept (tt_of y) = Some (tt_of y)).
  { intros y Y. unfold kept, tt_of. cbn [tt_tag]. rewrite Y. assert (X : existsb (Z.eqb (tag_of s)) (required ++ [t_cvt; t_fpgm; t_prep]) = true) by (apply existsb_exists; exists (tag_of s); split; [exact R|apply Z.eqb_refl]). rewrite X. reflexivity. }
  destruct I as [->|I].
  - rewrite (K e E). cbn [table_off tt_of tt_tag tt_off]. rewrite E, Z.eqb_refl. reflexivity.
  - assert (D : en_tag x <> tag_of s) by (intros D; apply NI; rewrite D, <- E; apply in_map; exact I). specialize (IH N I). destruct (kept (tt_of x)) as [t|] eqn:KX; [|exact IH].
    assert (T : tt_tag t = en_tag x). { unfold kept in KX. cbn [tt_tag tt_of] in KX. destruct (existsb _ _); [injection KX as <-; reflexivity|]. destruct (en_tag x =? t_post); [|discriminate]. destruct (_ <? _); [discriminate|]. injection KX as <-. reflexivity. }
    cbn [table_off]. rewrite T. destruct (Z.eqb_spec (en_tag x) (tag_of s)); [contradiction|exact IH].
Qed.

Section Valid.
Variable f : list Z.
Hypothesis V : valid f.
Notation VB := (v_bytes f V).
Lemma the_entry s : In s [bs "head"; bs "hhea"; bs "loca"; bs "maxp"; bs "glyf"; bs "hmtx"] ->
  exists e, In e (dir f) /\ named s e = true /\ table f s = slice f (en_off e) (en_len e) /\ size (table f s) = en_len e /\ 0 <= en_off e /\ 0 <= en_len e /\ en_off e + en_len e <= size f /\
    table_off (kept_all (dir f)) (tag_of s) = Ok (en_off e).
Proof.
  intros I. destruct (v_tables f V s I) as (e & IE & NE). exists e. pose proof (find_once s (dir f) e (v_once f V) IE NE) as F. pose proof (dir_range f e VB IE) as [R1 R2]. pose proof (v_inside f V e IE) as IN.
  assert (T : table f s = slice f (en_off e) (en_len e)) by (unfold table; rewrite F; reflexivity). split; [exact IE|]. split; [exact NE|]. split; [exact T|]. split; [rewrite T; apply size_slice; lia|]. split; [lia|]. split; [lia|]. split; [exact IN|].
  apply (off_kept _ _ _ (v_once f V) IE NE). cbn [In] in I. destruct I as [<-|[<-|[<-|[<-|[<-|[<-|[]]]]]]]; vm_compute; tauto.
Qed.
Definition off_of (s : list Z) : Z := match find (named s) (dir f) with Some e => en_off e | None => 0 end.
Definition the_font : font := mk_fn (kept_all (dir f)) (glyph_count f) (hcount f) (long_loca f) (off_of (bs "glyf")) (off_of (bs "loca")).
Lemma off_of_e s e : In e (dir f) -> named s e = true -> off_of s = en_off e.
Proof. intros I N. unfold off_of. rewrite (find_once s (dir f) e (v_once f V) I N). reflexivity. Qed.
Lemma init_ok : init_tables f = Ok (kept_all (dir f)).
Proof.
  unfold init_tables. pose proof (v_dir f V) as D. pose proof (at16_range f 4 VB) as R. rewrite rd16_ok by lia. cbn [bind]. change 0 with (Z.of_nat 0). rewrite tables_read by lia. cbn [bind]. fold (dir f).
  destruct (the_entry (bs "head")) as (e & I & N & _ & _ & _ & _ & _ & T); [left; reflexivity|]. change (tag_of (bs "head")) with t_head in T.
  assert (X : existsb (fun t => existsb (Z.eqb (tt_tag t)) required) (kept_all (dir f)) = true); [|rewrite X; reflexivity].
  revert T. generalize (kept_all (dir f)). clear. induction l as [|t l IH]; intros T; [discriminate|]. cbn [table_off existsb] in *. destruct (Z.eqb_spec (tt_tag t) t_head) as [E|E]; [rewrite E; reflexivity|]. rewrite (IH T). apply orb_true_r.
Qed.
Lemma open_ok : open_font f = Ok the_font.
Proof.
  unfold open_font. rewrite init_ok. cbn [bind].
  destruct (the_entry (bs "maxp")) as (e1 & I1 & N1 & T1 & S1 & A1 & B1 & C1 & O1); [cbn; tauto|]. change (tag_of (bs "maxp")) with t_maxp in O1. rewrite O1. cbn [bind]. pose proof (v_maxp f V).
  rewrite rd16_ok by lia. cbn [bind].
  destruct (the_entry (bs "hhea")) as (e2 & I2 & N2 & T2 & S2 & A2 & B2 & C2 & O2); [cbn; tauto|]. change (tag_of (bs "hhea")) with t_hhea in O2. rewrite O2. cbn [bind]. pose proof (v_hhea f V).
  rewrite rd16_ok by lia. cbn [bind].
  destruct (the_entry (bs "head")) as (e3 & I3 & N3 & T3 & S3 & A3 & B3 & C3 & O3); [cbn; tauto|]. change (tag_of (bs "head")) with t_head in O3. rewrite O3. cbn [bind]. pose proof (v_head f V). pose proof (v_size f V).
  unfold u32. rewrite Z.mod_small by lia. rewrite rd16_ok by lia. cbn [bind].
  destruct (the_entry (bs "glyf")) as (e4 & I4 & N4 & T4 & S4 & A4 & B4 & C4 & O4); [cbn; tauto|]. change (tag_of (bs "glyf")) with t_glyf in O4. rewrite O4. cbn [bind].
  destruct (the_entry (bs "loca")) as (e5 & I5 & N5 & T5 & S5 & A5 & B5 & C5 & O5); [cbn; tauto|]. change (tag_of (bs "loca")) with t_loca in O5. rewrite O5. cbn [bind].
  unfold the_font. rewrite (off_of_e _ e4 I4 N4), (off_of_e _ e5 I5 N5). unfold glyph_count, hcount, long_loca. rewrite T1, T2, T3. rewrite !at16_slice by lia. reflexivity.
Qed.

(** ** Glyphs *)
Lemma loca_range i : 0 <= i <= glyph_count f -> 0 <= loca f i < 2 ^ 32.
Proof. intros H. unfold loca. destruct (long_loca f); [apply at32_range, bytes_table; exact VB|]. pose proof (at16_range (table f (bs "loca")) (2 * i) (bytes_table f _ VB)). lia. Qed.
Lemma loca_mono i j : 0 <= i -> i <= j -> j <= glyph_count f -> loca f i <= loca f j.
Proof.
  intros A. intros IJ. generalize IJ. pattern j. apply Zlt_lower_bound_ind with (z := i); [|exact IJ]. intros x IH L L2 U. destruct (Z.eq_dec x i) as [->|N]; [lia|]. specialize (IH (x - 1) ltac:(lia) ltac:(lia) ltac:(lia)). pose proof (v_order f V (x - 1) ltac:(lia)) as O. replace (x - 1 + 1) with x in O by lia. lia.
Qed.
Lemma glyph_place i : 0 <= i < glyph_count f -> 0 <= loca f i /\ loca f i <= loca f (i + 1) /\ loca f (i + 1) <= size (table f (bs "glyf")) /\ size (glyph f i) = loca f (i + 1) - loca f i.
Proof.
  intros H. pose proof (loca_range i ltac:(lia)). pose proof (v_order f V i H). pose proof (loca_mono (i + 1) (glyph_count f) ltac:(lia) ltac:(lia) ltac:(lia)). pose proof (v_glyf f V).
  split; [lia|]. split; [lia|]. split; [lia|]. unfold glyph. apply size_slice; lia.
Qed.
Definition goff (i : Z) : Z := off_of (bs "glyf") + loca f i.
Lemma glyf_table : exists n, table f (bs "glyf") = slice f (off_of (bs "glyf")) n /\ 0 <= off_of (bs "glyf") /\ 0 <= n /\ off_of (bs "glyf") + n <= size f /\ size (table f (bs "glyf")) = n.
Proof.
  destruct (the_entry (bs "glyf")) as (e & I & N & T & S & A & B & C & O); [cbn; tauto|]. rewrite (off_of_e _ e I N). exists (en_len e). split; [exact T|]. split; [exact A|]. split; [exact B|]. split; [exact C|exact S].
Qed.
Lemma slice_slice b o n p m : 0 <= o -> 0 <= p -> 0 <= m -> p + m <= n -> slice (slice b o n) p m = slice b (o + p) m.
Proof.
  intros A B C D. unfold slice. rewrite skipn_firstn_comm, firstn_firstn. replace (Init.Nat.min (Z.to_nat m) (Z.to_nat n - Z.to_nat p)) with (Z.to_nat m) by lia. f_equal. rewrite <- (firstn_skipn (Z.to_nat o) b) at 2.
  replace (Z.to_nat (o + p)) with (Z.to_nat o + Z.to_nat p)%nat by lia. clear. revert b. induction (Z.to_nat o) as [|k IH]; intros b; [reflexivity|]. destruct b as [|c b]; [cbn [skipn firstn app]; rewrite !skipn_nil; reflexivity|]. cbn [skipn firstn app Nat.add]. apply IH.
Qed.
Lemma glyph_slice i : 0 <= i < glyph_count f -> glyph f i = slice f (goff i) (size (glyph f i)) /\ 0 <= goff i /\ goff i + size (glyph f i) <= size f.
Proof.
  intros H. destruct (glyph_place i H) as (A & B & C & D). destruct glyf_table as (n & T & E1 & E2 & E3 & E4). rewrite D. split; [|unfold goff; lia]. unfold glyph. rewrite T. unfold goff. apply slice_slice; lia.
Qed.
Lemma locate_ok i : 0 <= i < glyph_count f -> locate f the_font i = Ok (goff i, size (glyph f i)).
Proof.
  intros H. destruct (glyph_place i H) as (A & B & C & D). destruct (glyph_slice i H) as (_ & G1 & G2). pose proof (v_size f V). pose proof (size_nonneg (glyph f i)).
  destruct (the_entry (bs "loca")) as (e & I & N & T & S & EA & EB & EC & O); [cbn; tauto|]. pose proof (v_loca f V) as VL. unfold locate. cbn [fn_long the_font fn_loca fn_glyf]. rewrite (off_of_e _ e I N).
  rewrite S in VL. unfold goff, loca in *. destruct (long_loca f); rewrite T in *.
  - rewrite !rd32_ok by lia. cbn [bind]. rewrite !at32_slice in * by lia. unfold u32. rewrite !Z.mod_small by lia. rewrite D. reflexivity.
  - rewrite !rd16_ok by lia. cbn [bind]. rewrite !at16_slice in * by lia. unfold u32. rewrite !Z.mod_small by lia. rewrite D. reflexivity.
Qed.
(** The components of a glyph *)
Lemma flag_bit v k : 0 <= v -> 0 <= k -> flag v (2 ^ k) = Z.testbit v k.
Proof.
  intros A B. unfold flag. destruct (Z.testbit v k) eqn:E.
  - destruct (Z.eqb_spec (Z.land v (2 ^ k)) 0) as [X|X]; [|reflexivity]. exfalso. apply (f_equal (fun x => Z.testbit x k)) in X. rewrite Z.land_spec, E, Z.pow2_bits_true, Z.bits_0 in X by lia. discriminate.
  - destruct (Z.eqb_spec (Z.land v (2 ^ k)) 0) as [X|X]; [reflexivity|]. exfalso. apply X. apply Z.bits_inj. intros j. rewrite Z.land_spec, Z.bits_0. destruct (Z.eq_dec j k) as [->|N]; [rewrite E; reflexivity|]. rewrite Z.pow2_bits_false by lia. apply andb_false_r.
Qed.
Lemma step_part v : 0 <= v -> step v = part_size v.
Proof.
  intros A. unfold step, part_size. rewrite <- (flag_bit v 0), <- (flag_bit v 3), <- (flag_bit v 6), <- (flag_bit v 7) by lia. change (2 ^ 0) with 1. change (2 ^ 3) with 8. change (2 ^ 6) with 64. change (2 ^ 7) with 128. destruct (flag v 1), (flag v 8), (flag v 64), (flag v 128); reflexivity.
Qed.
Lemma more_flag v : 0 <= v -> more v = flag v 32. Proof. intros A. unfold more. rewrite <- (flag_bit v 5) by lia. reflexivity. Qed.
Lemma part_pos v : 6 <= part_size v <= 16.
Proof. unfold part_size. destruct (flag v 1), (flag v 8), (flag v 64), (flag v 128); lia. Qed.
Lemma parts_bound g o l : parts g o l -> o + 4 <= size g.
Proof. intros H. inversion H; assumption. Qed.
Lemma comps_ok g l i fuel o : 0 <= i < glyph_count f -> g = glyph f i -> parts g (10 + o) l -> 0 <= o -> (Z.to_nat (size g - o) < fuel)%nat ->
  comps fuel f (u32 (goff i + 10)) o = (map (fun p => (goff i + fst p - 2, snd p)) l, Ok tt).
Proof.
  intros HI -> P. destruct (glyph_slice i HI) as (GS & G1 & G2). pose proof (v_size f V) as VS. set (g := glyph f i) in *. remember (10 + o) as x eqn:EX. revert o fuel EX. induction P as [x B F|x l B F P IH]; intros o fuel EX OO FU; subst x.
  - destruct fuel as [|k]; [lia|]. cbn [comps]. unfold u32. rewrite (Z.mod_small (goff i + 10)) by lia. rewrite Z.mod_small by lia. rewrite !rd16_ok by lia. cbn [bind].
    assert (E : at16 f (goff i + 10 + o) = at16 g (10 + o)) by (rewrite GS, at16_slice by lia; f_equal; lia). assert (E2 : at16 f (goff i + 10 + o + 2) = at16 g (10 + o + 2)) by (rewrite GS, at16_slice by lia; f_equal; lia).
    rewrite E, E2. rewrite more_flag by (apply at16_range, bytes_slice, bytes_table; exact VB || apply at16_range; exact VB). rewrite F. cbn [map fst snd]. do 3 f_equal. lia.
  - destruct fuel as [|k]; [lia|]. cbn [comps]. pose proof (parts_bound _ _ _ P) as PB. pose proof (part_pos (at16 g (10 + o))) as PP.
    unfold u32. rewrite (Z.mod_small (goff i + 10)) by lia. rewrite (Z.mod_small (goff i + 10 + o)) by lia. rewrite !rd16_ok by lia. cbn [bind].
    assert (E : at16 f (goff i + 10 + o) = at16 g (10 + o)) by (rewrite GS, at16_slice by lia; f_equal; lia). assert (E2 : at16 f (goff i + 10 + o + 2) = at16 g (10 + o + 2)) by (rewrite GS, at16_slice by lia; f_equal; lia).
    assert (R : 0 <= at16 g (10 + o)) by (apply at16_range, bytes_slice, bytes_table; exact VB). rewrite E, E2. rewrite more_flag by exact R. rewrite F. rewrite step_part by exact R. rewrite (Z.mod_small (o + _)) by lia.
    specialize (IH (o + part_size (at16 g (10 + o))) k ltac:(lia) ltac:(lia) ltac:(lia)). unfold u32 in IH. rewrite (Z.mod_small (goff i + 10)) in IH by lia. rewrite IH. cbn [map fst snd]. do 3 f_equal. lia.
Qed.
(** What is noted of a glyph *)
Definition data (i : Z) : gdata := mk_gd (compound (glyph f i)) (goff i) (size (glyph f i)).
Lemma components_ok i l : 0 <= i < glyph_count f -> compound (glyph f i) = true -> parts (glyph f i) 10 l -> components f (data i) = (map (fun p => (goff i + fst p - 2, snd p)) l, Ok tt).
Proof.
  intros H C P. destruct (glyph_slice i H) as (_ & G1 & G2). unfold components, gd_adv. cbn [data gd_off]. apply (comps_ok (glyph f i)); [exact H|reflexivity|exact P|lia|]. unfold size in *. lia.
Qed.
Hypothesis EO : empty_ok f.
Lemma contours i : 0 <= i < glyph_count f -> exists cc, rd16 f (goff i) = Ok cc /\ (2 ^ 15 <=? cc) = compound (glyph f i).
Proof.
  intros H. destruct (glyph_slice i H) as (GS & G1 & G2). destruct (v_glyph f V i H) as [E|L].
  - destruct (the_entry (bs "glyf")) as (e & I & N & _); [cbn; tauto|]. destruct (EO e i I N H E) as [A B]. rewrite <- (off_of_e _ e I N) in A, B. fold (goff i) in A, B. exists (at16 f (goff i)). split; [apply rd16_ok; lia|].
    rewrite E. unfold compound. cbn [size length Z.of_nat Z.eqb negb andb]. apply Z.leb_gt. exact B.
  - exists (at16 f (goff i)). split; [apply rd16_ok; lia|]. unfold compound. destruct (Z.eqb_spec (size (glyph f i)) 0); [lia|]. cbn [negb andb]. rewrite GS at 1. rewrite at16_slice by lia. rewrite Z.add_0_r. reflexivity.
Qed.
End Valid.
