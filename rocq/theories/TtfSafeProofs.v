(** Building a subset ends for every file; with a valid font nothing is undefined, whatever glyphs are asked for. *)
From Coq Require Import Lia String.
From Verif Require Import Base ChainProofs TtfModel TtfSpec TtfReadProofs TtfLoadProofs TtfOrderProofs TtfLayoutProofs TtfWriteProofs.
Local Open Scope Z_scope.

(** ** Reading is never undefined *)
Lemma read_tables_tame n : forall i f, tame (read_tables n i f).
Proof. induction n as [|n IH]; intros i f; [exact Logic.I|]. cbn [read_tables]. do 4 (apply bind_tame; [apply rd32_tame|intros ? _]). apply bind_tame; [apply IH|intros r _]. exact Logic.I. Qed.
Lemma init_tame f : tame (init_tables f).
Proof. unfold init_tables. apply bind_tame; [apply rd16_tame|intros n _]. apply bind_tame; [apply read_tables_tame|intros ts _]. destruct (existsb _ ts); exact Logic.I. Qed.
Lemma off_tame ts tg : tame (table_off ts tg).
Proof. induction ts as [|t ts IH]; [exact Logic.I|]. cbn [table_off]. destruct (_ =? _); [exact Logic.I|exact IH]. Qed.
Lemma open_tame f : tame (open_font f).
Proof. unfold open_font. apply bind_tame; [apply init_tame|intros ts _]. do 3 (apply bind_tame; [apply off_tame|intros ? _]; apply bind_tame; [apply rd16_tame|intros ? _]). do 2 (apply bind_tame; [apply off_tame|intros ? _]). exact Logic.I. Qed.
Lemma order_tame f : size f < 2 ^ 31 -> forall m s, tame (order_glyphs f m s).
Proof.
  intros S. induction m as [|[g d] m IH]; intros s; [exact Logic.I|]. cbn [order_glyphs]. destruct (gd_comp d).
  - pose proof (components_tame f d S) as C. destruct (components f d) as [l e]. destruct (order_comps d s l) as [s1 x]. cbn [snd] in C. apply bind_tame; [exact C|intros _ _]. apply bind_tame; [apply IH|intros [s2 xs] _]. exact Logic.I.
  - apply bind_tame; [apply IH|intros [s2 xs] _]. exact Logic.I.
Qed.
Lemma load_tame f fn gids : bytes_ok f -> size f < 2 ^ 31 -> Forall (fun g => 0 <= g) gids -> tame (load_glyphs f fn gids).
Proof.
  intros B S N. unfold load_glyphs. assert (F0 : few_keys (fn_count fn) []) by (split; [constructor|contradiction]). pose proof (load_all_ends f fn B S (0 :: gids) [] 0 (Forall_cons 0 (Z.le_refl 0) N) F0) as E. unfold ends in E. destruct (load_all f fn (0 :: gids) ([], 0)) as [[m hm]| | |]; cbn [bind]; try exact Logic.I; try exact E.
  apply bind_tame; [apply order_tame; exact S|intros [s fx] _]. exact Logic.I.
Qed.

(** ** Writing ends *)
Definition no_fuel {A} (r : res A) : Prop := match r with Fuel => False | _ => True end.
Lemma tame_fuel {A} (r : res A) : tame r -> no_fuel r. Proof. destruct r; intros H; exact H || exact Logic.I. Qed.
Lemma bind_fuel {A B} (r : res A) (k : A -> res B) : no_fuel r -> (forall a, r = Ok a -> no_fuel (k a)) -> no_fuel (do x <- r; k x).
Proof. intros H K. destruct r; cbn [bind]; [apply K; reflexivity|exact Logic.I|exact Logic.I|exact H]. Qed.
Lemma patch_fuel b o x : no_fuel (patch b o x). Proof. unfold patch. destruct (_ <=? _); exact Logic.I. Qed.
Lemma patch_all_fuel l : forall b, no_fuel (patch_all b l).
Proof. induction l as [|[o i] l IH]; intros b; [exact Logic.I|]. cbn [patch_all]. apply bind_fuel; [apply patch_fuel|intros b' _]. apply IH. Qed.
Lemma write_glyphs_fuel f ld l : no_fuel (write_glyphs f ld l).
Proof.
  induction l as [|g l IH]; [exact Logic.I|]. cbn [write_glyphs]. apply bind_fuel; [|intros b _; apply bind_fuel; [exact IH|intros x _; exact Logic.I]]. destruct (_ =? 0); [exact Logic.I|]. apply bind_fuel; [apply tame_fuel, rd_tame|intros b _]. destruct (gd_comp _); [apply patch_all_fuel|exact Logic.I].
Qed.
Lemma write_metrics_tame f hm off l : tame (write_metrics f hm off l).
Proof. induction l as [|g l IH]; [exact Logic.I|]. cbn [write_metrics]. destruct (_ <? _); (apply bind_tame; [apply rd_tame|intros b _]; apply bind_tame; [exact IH|intros [x y] _]; exact Logic.I). Qed.
Lemma write_table_fuel f fn ld t : no_fuel (write_table f fn ld t).
Proof.
  unfold write_table. cbv zeta.
  do 3 (destruct (_ =? _); [apply bind_fuel; [apply tame_fuel, rd_tame|intros b _; apply patch_fuel]|]).
  destruct (_ =? _); [apply bind_fuel; [apply tame_fuel, rd_tame|intros b _]; apply bind_fuel; [apply patch_fuel|intros b' _; apply patch_fuel]|].
  destruct (_ =? _); [apply write_glyphs_fuel|]. destruct (_ =? _); [exact Logic.I|]. destruct (_ =? _); [|apply tame_fuel, rd_tame].
  apply bind_fuel; [apply tame_fuel, off_tame|intros off _]. apply bind_fuel; [apply tame_fuel, write_metrics_tame|intros [x y] _]. exact Logic.I.
Qed.
Lemma write_all_fuel f fn ld ts : forall off, no_fuel (write_all f fn ld off ts).
Proof. induction ts as [|t ts IH]; intros off; [exact Logic.I|]. cbn [write_all]. apply bind_fuel; [apply write_table_fuel|intros b _]. apply bind_fuel; [apply IH|intros [[d x] h] _]. exact Logic.I. Qed.
Lemma header_fuel n : no_fuel (header n). Proof. unfold header. destruct (_ <=? _); exact Logic.I. Qed.
Lemma write_tables_fuel f fn ld : no_fuel (write_tables f fn ld).
Proof. unfold write_tables. apply bind_fuel; [apply header_fuel|intros h _]. apply bind_fuel; [apply write_all_fuel|intros [[d x] o] _]. destruct o as [o|]; [apply patch_fuel|exact Logic.I]. Qed.
Theorem build_ends f gids : bytes_ok f -> size f < 2 ^ 31 -> Forall (fun g => 0 <= g) gids -> build_font f gids <> Fuel.
Proof.
  intros B S N E. assert (H : no_fuel (build_font f gids)); [|rewrite E in H; exact H]. unfold build_font. apply bind_fuel; [apply tame_fuel, open_tame|intros fn _]. apply bind_fuel; [apply tame_fuel, load_tame; assumption|intros ld _]. apply write_tables_fuel.
Qed.

(** ** What is in the map of glyphs *)
Section Made.
Variables (f : list Z) (fn : font).
Definition made (x : Z * gdata) : Prop := 0 <= fst x < fn_count fn /\ exists off ln cc, locate f fn (fst x) = Ok (off, ln) /\ rd16 f off = Ok cc /\ snd x = mk_gd (2 ^ 15 <=? cc) off ln.
Hypothesis HB : bytes_ok f.
Lemma load_made fuel : forall g m hm m' hm', 0 <= g -> Forall made m -> load_gid fuel f fn g (m, hm) = Ok (m', hm') -> Forall made m'.
Proof.
  induction fuel as [|k IH]; intros g m hm m' hm' G F E; [discriminate|]. cbn [load_gid] in E. destruct (fn_count fn <=? g) eqn:R; [discriminate|]. cbn [fst snd] in E. destruct (find_glyph m g) as [d|]; [injection E as <- <-; exact F|].
  apply bind_ok in E as ([off ln] & EL & E). apply bind_ok in E as (cc & EC & E). set (d := mk_gd (2 ^ 15 <=? cc) off ln) in *. assert (F1 : Forall made (put_glyph m g d)).
  { apply Forall_forall. intros x I. apply put_in in I as [->|I]; [|exact (proj1 (Forall_forall _ _) F x I)]. cbn [made fst snd]. split; [cbn [fst]; lia|]. exists off, ln, cc. split; [exact EL|]. split; [exact EC|reflexivity]. }
  revert E. generalize (if g <? fn_hm fn then u16 (hm + 1) else hm). intros h1 E. destruct (gd_comp d); [|injection E as <- <-; exact F1]. pose proof (comps_nonneg f HB (S (length f)) (gd_adv d) 0) as CN. fold (components f d) in CN. destruct (components f d) as [l e]. cbn [fst] in CN.
  apply bind_ok in E as ([m2 h2] & E & E2). apply bind_ok in E2 as (u & _ & E2). injection E2 as <- <-. clear EL EC F e u. revert CN E F1. generalize (put_glyph m g d). revert h1. induction l as [|c l IHl]; intros h1 m1 CN E F1; [injection E as <- <-; exact F1|]. inversion CN as [|x y C1 C2]; subst. apply bind_ok in E as ([m3 h3] & E3 & E). apply (IHl h3 m3 C2 E). exact (IH _ _ _ _ _ C1 F1 E3).
Qed.
Lemma load_all_made l : forall m hm m' hm', Forall (fun g => 0 <= g) l -> Forall made m -> load_all f fn l (m, hm) = Ok (m', hm') -> Forall made m'.
Proof.
  induction l as [|g l IH]; intros m hm m' hm' N F E; [injection E as <- <-; exact F|]. inversion N as [|x y N1 N2]; subst. cbn [load_all] in E. apply bind_ok in E as ([m1 h1] & E1 & E). apply (IH m1 h1 m' hm' N2); [|exact E]. exact (load_made _ _ _ _ _ _ N1 F E1).
Qed.
Definition places (d : gdata) (x : list (Z * Z)) : Prop := map fst x = map (fun c => u32 (u32 (fst c + 2) - gd_off d)) (fst (components f d)).
Lemma order_comps_places d l : forall s s' x, order_comps d s l = (s', x) -> map fst x = map (fun c => u32 (u32 (fst c + 2) - gd_off d)) l.
Proof.
  induction l as [|c l IH]; intros s s' x E; [injection E as <- <-; reflexivity|]. cbn [order_comps] in E. unfold order_one in E. destruct (add_index (fst s) (snd c)) as [[idx i] new]. destruct (order_comps d (idx, if new then snd s ++ [snd c] else snd s) l) as [s2 xs] eqn:E2. injection E as <- <-. cbn [map fst]. f_equal. exact (IH _ _ _ E2).
Qed.
Lemma order_places m : forall s s' fx, order_glyphs f m s = Ok (s', fx) -> forall g x, In (g, x) fx -> exists d, In (g, d) m /\ places d x.
Proof.
  induction m as [|[k d] m IH]; intros s s' fx E g x I; [injection E as <- <-; contradiction|]. cbn [order_glyphs] in E. destruct (gd_comp d).
  - destruct (components f d) as [l e] eqn:C. destruct (order_comps d s l) as [s1 y] eqn:O. apply bind_ok in E as (u & _ & E). apply bind_ok in E as ([s2 xs] & E & E2). injection E2 as <- <-. destruct I as [I|I].
    + injection I as <- <-. exists d. split; [left; reflexivity|]. unfold places. rewrite C. exact (order_comps_places d l _ _ _ O).
    + destruct (IH _ _ _ E g x I) as (d' & A & B). exists d'. split; [right; exact A|exact B].
  - apply bind_ok in E as ([s2 xs] & E & E2). injection E2 as <- <-. destruct (IH _ _ _ E g x I) as (d' & A & B). exists d'. split; [right; exact A|exact B].
Qed.
End Made.
Lemma fix_in fx g : fix_of fx g = [] \/ In (g, fix_of fx g) fx.
Proof. induction fx as [|[k l] fx IH]; [left; reflexivity|]. cbn [fix_of]. destruct (Z.eqb_spec g k) as [->|N]; [right; left; reflexivity|]. destruct IH as [->|I]; [left; reflexivity|right; right; exact I]. Qed.

(** ** A valid font *)
Definition no_ub {A} (r : res A) : Prop := match r with UB => False | _ => True end.
Lemma tame_ub {A} (r : res A) : tame r -> no_ub r. Proof. destruct r; intros H; exact H || exact Logic.I. Qed.
Lemma bind_ub {A B} (r : res A) (k : A -> res B) : no_ub r -> (forall a, r = Ok a -> no_ub (k a)) -> no_ub (do x <- r; k x).
Proof. intros H K. destruct r; cbn [bind]; [apply K; reflexivity|exact Logic.I|exact H|exact Logic.I]. Qed.
Lemma rd_size n f o b : 0 <= n -> 0 <= o -> rd n f o = Ok b -> size b = n.
Proof. intros A B E. pose proof (rd_bound _ _ _ _ E) as C. rewrite rd_ok in E by assumption. injection E as <-. apply size_slice; assumption. Qed.
Lemma patch_ub b o x : 0 <= o -> o + size x <= size b -> no_ub (patch b o x).
Proof. intros A B. destruct (patch_ok b o x A B) as (b' & -> & _). exact Logic.I. Qed.
Lemma patch_size b o x b' : 0 <= o -> patch b o x = Ok b' -> o + size x <= size b /\ size b' = size b.
Proof.
  intros A E. assert (L : o + size x <= size b) by (unfold patch in E; change (len x) with (size x) in E; change (len b) with (size b) in E; destruct (o + size x <=? size b) eqn:L; [lia|discriminate]). split; [exact L|]. destruct (patch_ok b o x A L) as (b2 & E2 & S2 & _). congruence.
Qed.
Lemma patch_all_ub l : forall b, Forall (fun x => 0 <= fst x /\ fst x + 2 <= size b) l -> no_ub (patch_all b l).
Proof.
  induction l as [|[o i] l IH]; intros b F; [exact Logic.I|]. inversion F as [|x y [F0 F1] F2]; subst. cbn [fst] in F0, F1. cbn [patch_all]. apply bind_ub; [apply patch_ub; [exact F0|change (size (be16 (u16 i))) with 2; lia]|]. intros b' E. apply IH. destruct (patch_size _ _ _ _ F0 E) as [_ ->]. exact F2.
Qed.
Section Valid.
Variable f : list Z.
Hypothesis V : valid f.
Notation fn := (the_font f).
Lemma made_data g d : made f fn (g, d) -> 0 <= g < glyph_count f /\ gd_off d = goff f g /\ gd_len d = size (glyph f g) /\ (gd_len d <> 0 -> gd_comp d = compound (glyph f g)).
Proof.
  intros [R (off & ln & cc & L & C & D)]. cbn [fst snd] in *. subst d. cbn [the_font fn_count] in R. rewrite (locate_ok f V g R) in L. injection L as <- <-. split; [exact R|]. split; [reflexivity|]. split; [reflexivity|]. cbn [gd_len gd_comp]. intros NZ. destruct (glyph_slice f V g R) as (GS & G1 & G2). destruct (v_glyph f V g R) as [E|L]; [rewrite E in NZ; cbn in NZ; lia|].
  rewrite rd16_ok in C by lia. injection C as <-. unfold compound. destruct (Z.eqb_spec (size (glyph f g)) 0); [lia|]. cbn [negb andb]. rewrite GS at 1. rewrite at16_slice by lia. rewrite Z.add_0_r. reflexivity.
Qed.
Lemma places_in g d x : made f fn (g, d) -> gd_len d <> 0 -> gd_comp d = true -> places f d x -> Forall (fun p => 0 <= fst p /\ fst p + 2 <= gd_len d) x.
Proof.
  intros M NZ GC P. destruct (made_data g d M) as (R & O & L & C). rewrite (C NZ) in GC. assert (D : d = data f g). { unfold data. rewrite GC, <- O, <- L. destruct d as [c o l]. cbn [gd_comp] in C. rewrite GC in C. cbn [gd_off gd_len]. f_equal. apply C. exact NZ. }
  destruct (v_parts f V g R GC) as (l & PL & _). unfold places in P. rewrite D in P. rewrite (components_ok f V g l R GC PL) in P. cbn [fst gd_off data] in P. rewrite map_map in P. cbn [fst] in P. destruct (glyph_slice f V g R) as (_ & G1 & G2). pose proof (v_size f V) as VS. rewrite L.
  pose proof (parts_in _ _ _ PL ltac:(lia)) as PI. clear PL. revert x P. induction l as [|[p c] l IH]; intros x P; [destruct x; [constructor|discriminate]|]. destruct x as [|[q i] x]; [discriminate|]. cbn [map fst] in P. injection P as P1 P2. inversion PI as [|a b [PI1 PI2] PI3]; subst. cbn [fst] in PI1, PI2. constructor; [|exact (IH PI3 x P2)]. cbn [fst]. unfold u32. rewrite (Z.mod_small (goff f g + p - 2 + 2)) by lia. rewrite Z.mod_small by lia. lia.
Qed.
Lemma glyphs_ub m hm ord s fx : Forall (made f fn) m -> (forall g x, In (g, x) fx -> exists d, In (g, d) m /\ places f d x) -> no_ub (write_glyphs f (mk_ld m hm s fx) ord).
Proof.
  intros M FX. induction ord as [|g ord IH]; [exact Logic.I|]. cbn [write_glyphs]. apply bind_ub; [|intros b _; apply bind_ub; [exact IH|intros x _; exact Logic.I]]. unfold glyph_data. cbn [ld_map ld_fix]. destruct (find_glyph m g) as [d|] eqn:E; [|exact Logic.I]. apply find_in in E. pose proof (proj1 (Forall_forall _ _) M _ E) as MG. destruct (made_data g d MG) as (R & O & L & C).
  destruct (Z.eqb_spec (gd_len d) 0) as [Z0|NZ]; [exact Logic.I|]. apply bind_ub; [apply tame_ub, rd_tame|intros b EB]. destruct (gd_comp d) eqn:GC; [|exact Logic.I]. destruct (glyph_slice f V g R) as (_ & G1 & G2). apply rd_size in EB; [|rewrite L; apply size_nonneg|lia]. apply patch_all_ub. rewrite EB. destruct (fix_in fx g) as [->|I]; [constructor|].
  destruct (FX _ _ I) as (d' & I' & P). pose proof (proj1 (Forall_forall _ _) M _ I') as MG'. destruct (made_data g d' MG') as (_ & O' & L' & C'). rewrite L, <- L'. apply (places_in g d'); [exact MG'|lia| |exact P]. rewrite C' by lia. rewrite <- C by exact NZ. reflexivity.
Qed.
Lemma table_ub ld t : no_ub (write_glyphs f ld (ld_order ld)) -> In t (kept_all (dir f)) -> no_ub (write_table f fn ld t) /\ (tt_tag t = t_head -> forall b, write_table f fn ld t = Ok b -> 8 <= size b).
Proof.
  intros G I. destruct (kept_in f _ t I) as (e & IE & W & ET). pose proof (dir_range f e (v_bytes f V) IE) as [R1 R2]. assert (TAG : tt_tag t = en_tag e) by (rewrite ET; reflexivity). assert (OFF : 0 <= tt_off t) by (rewrite ET; exact R1). assert (LEN : tt_len t = if en_tag e =? t_post then 32 else en_len e) by (rewrite ET; reflexivity). assert (L0 : 0 <= tt_len t) by (rewrite LEN; destruct (_ =? _); lia).
  assert (TAB : forall s, tt_tag t = word s 0 -> word s 0 <> t_post -> size (table f s) = tt_len t).
  { intros s T NP. assert (N : named s e = true) by (unfold named; rewrite <- TAG, T; apply Z.eqb_refl). pose proof (find_once s _ e (v_once f V) IE N) as FE. pose proof (v_inside f V e IE). rewrite LEN, <- TAG, T. destruct (Z.eqb_spec (word s 0) t_post); [contradiction|]. unfold table. rewrite FE. apply size_slice; lia. }
  unfold write_table. destruct (Z.eqb_spec (tt_tag t) t_head) as [T|N1].
  { pose proof (TAB (bs "head") T ltac:(discriminate)) as S. pose proof (v_head f V). split.
    - apply bind_ub; [apply tame_ub, rd_tame|intros b E]. apply rd_size in E; [|assumption|assumption]. apply patch_ub; [lia|]. change (size (be32 0)) with 4. lia.
    - intros _ b E. apply bind_ok in E as (b0 & E & P). apply patch_size in P as [P1 P2]; [|lia]. change (size (be32 0)) with 4 in P1. lia. }
  split; [|contradiction].
  destruct (Z.eqb_spec (tt_tag t) t_maxp) as [T|N2].
  { pose proof (TAB (bs "maxp") T ltac:(discriminate)) as S. pose proof (v_maxp f V). apply bind_ub; [apply tame_ub, rd_tame|intros b E]. apply rd_size in E; [|assumption|assumption]. apply patch_ub; [lia|]. match goal with |- context [size (be16 ?v)] => change (size (be16 v)) with 2 end. lia. }
  destruct (Z.eqb_spec (tt_tag t) t_hhea) as [T|N3].
  { pose proof (TAB (bs "hhea") T ltac:(discriminate)) as S. pose proof (v_hhea f V). apply bind_ub; [apply tame_ub, rd_tame|intros b E]. apply rd_size in E; [|assumption|assumption]. apply patch_ub; [lia|]. match goal with |- context [size (be16 ?v)] => change (size (be16 v)) with 2 end. lia. }
  destruct (Z.eqb_spec (tt_tag t) t_post) as [T|N4].
  { rewrite LEN, <- TAG, T. change (t_post =? t_post) with true. cbn iota. apply bind_ub; [apply tame_ub, rd_tame|intros b E]. apply rd_size in E; [|lia|assumption]. apply bind_ub; [apply patch_ub; [lia|rewrite E; vm_compute; discriminate]|intros b' E']. apply patch_size in E' as [_ E']; [|lia]. apply patch_ub; [lia|]. rewrite E', E. vm_compute. discriminate. }
  destruct (tt_tag t =? t_glyf); [exact G|]. destruct (tt_tag t =? t_loca); [exact Logic.I|]. destruct (tt_tag t =? t_hmtx); [|apply tame_ub, rd_tame]. apply tame_ub. apply bind_tame; [apply off_tame|intros off _]. apply bind_tame; [apply write_metrics_tame|intros [x y] _]. exact Logic.I.
Qed.
Lemma all_ub ld ts : (forall t, In t ts -> no_ub (write_table f fn ld t) /\ (tt_tag t = t_head -> forall b, write_table f fn ld t = Ok b -> 8 <= size b)) -> forall off, no_ub (write_all f fn ld off ts) /\ forall d x h, write_all f fn ld off ts = Ok (d, x, h) -> size d = 16 * Z.of_nat (length ts) /\ forall o, h = Some o -> off <= o /\ o + 8 <= off + size x.
Proof.
  induction ts as [|t ts IH]; intros H off; [split; [exact Logic.I|intros d x h E; injection E as <- <- <-; split; [reflexivity|discriminate]]|]. destruct (H t (or_introl eq_refl)) as [U HD]. specialize (IH (fun t' I => H t' (or_intror I))). cbn [write_all]. split.
  - apply bind_ub; [exact U|intros b _]. apply bind_ub; [apply IH|intros [[d x] h] _]. exact Logic.I.
  - intros d x h E. apply bind_ok in E as (b & EB & E). apply bind_ok in E as ([[d1 x1] h1] & E1 & E). injection E as <- <- <-. destruct (IH (off + len (padded b))) as [_ IH2]. destruct (IH2 d1 x1 h1 E1) as [S1 O1]. change (len (padded b)) with (size (padded b)) in *. pose proof (padded_size b) as (P1 & _). pose proof (size_nonneg b). pose proof (size_nonneg x1). split.
    + unfold size in S1 |- *. cbn [app be32 length]. lia.
    + intros o EO. rewrite size_app. destruct h1 as [o1|]; [injection EO as ->; destruct (O1 o eq_refl); lia|]. destruct (Z.eqb_spec (tt_tag t) t_head) as [T|]; [|discriminate]. injection EO as <-. specialize (HD T b EB). lia.
Qed.
Theorem build_defined gids : Forall (fun g => 0 <= g) gids -> build_font f gids <> UB.
Proof.
  intros N E. assert (H : no_ub (build_font f gids)); [|rewrite E in H; exact H]. clear E. pose proof (v_size f V) as VS. unfold build_font. rewrite (open_ok f V). cbn [bind]. apply bind_ub; [apply tame_ub, load_tame; [apply (v_bytes f V)|lia|exact N]|]. intros ld E.
  unfold load_glyphs in E. apply bind_ok in E as ([m hm] & EM & E). apply bind_ok in E as ([s fx] & EF & E). injection E as <-. assert (MM : Forall (made f fn) m) by (apply (load_all_made f fn (v_bytes f V) (0 :: gids) [] 0 m hm); [constructor; [lia|exact N]|constructor|exact EM]). pose proof (order_places f m _ _ _ EF) as PL.
  set (ld := mk_ld m hm (snd s) fx). assert (G : no_ub (write_glyphs f ld (ld_order ld))) by (apply glyphs_ub; assumption). unfold write_tables. cbn [fn_tables the_font]. destruct (header_ok (length (kept_all (dir f))) (kept_few f V)) as (h & EH & SH & _). rewrite EH. cbn [bind].
  destruct (all_ub ld (kept_all (dir f)) (fun t I => table_ub ld t G I) (12 + 16 * Z.of_nat (length (kept_all (dir f))))) as [U HO]. apply bind_ub; [exact U|]. intros [[d x] o] EW. destruct (HO d x o EW) as [SD SO]. destruct o as [o|]; [|exact Logic.I]. destruct (SO o eq_refl) as [O1 O2]. apply patch_ub; [lia|]. rewrite !size_app. match goal with |- context [size (be32 ?v)] => change (size (be32 v)) with 4 end. lia.
Qed.
End Valid.
