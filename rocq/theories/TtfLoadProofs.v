(** Loading the glyphs of a valid font: what is needed and nothing else, each once. *)
From Coq Require Import Lia String.
From Verif Require Import Base ChainProofs TtfModel TtfSpec TtfReadProofs.
Local Open Scope Z_scope.

(** ** The map of glyphs *)
Definition keys (m : list (Z * gdata)) : list Z := map fst m.
Lemma find_none m g : find_glyph m g = None <-> ~ In g (keys m).
Proof.
  induction m as [|[k d] m IH]; cbn [find_glyph keys map fst In]; [tauto|]. destruct (Z.eqb_spec g k) as [->|N]; [split; [discriminate|intros H; exfalso; apply H; left; reflexivity]|]. rewrite IH. unfold keys. split; [intros H [E|I]; [congruence|contradiction]|tauto].
Qed.
Lemma find_in m g d : find_glyph m g = Some d -> In (g, d) m.
Proof. induction m as [|[k e] m IH]; cbn [find_glyph In]; [discriminate|]. destruct (Z.eqb_spec g k) as [->|N]; [intros E; injection E as ->; left; reflexivity|]. intros E. right. apply IH. exact E. Qed.
Lemma put_in m g d x : In x (put_glyph m g d) <-> x = (g, d) \/ In x m.
Proof. induction m as [|[k e] m IH]; cbn [put_glyph In]; [intuition|]. destruct (g <? k); cbn [In]; [intuition|]. rewrite IH. intuition. Qed.
Lemma put_keys m g d k : In k (keys (put_glyph m g d)) <-> k = g \/ In k (keys m).
Proof.
  unfold keys. rewrite !in_map_iff. split.
  - intros ([k' d'] & E & I). cbn [fst] in E. subst k'. apply put_in in I as [I|I]; [injection I as -> ->; left; reflexivity|]. right. exists (k, d'). split; [reflexivity|exact I].
  - intros [->|([k' d'] & E & I)]; [exists (g, d); split; [reflexivity|apply put_in; left; reflexivity]|]. exists (k', d'). split; [exact E|apply put_in; right; exact I].
Qed.
Lemma put_nodup m g d : NoDup (keys m) -> ~ In g (keys m) -> NoDup (keys (put_glyph m g d)).
Proof.
  induction m as [|[k e] m IH]; intros N I; [cbn; constructor; [tauto|constructor]|]. cbn [put_glyph]. cbn [keys map fst] in N, I. apply NoDup_cons_iff in N as [NI N]. destruct (g <? k).
  - cbn [keys map fst]. constructor; [exact I|]. constructor; [exact NI|exact N].
  - cbn [keys map fst]. constructor; [|apply IH; [exact N|intros X; apply I; right; exact X]]. intros X. apply put_keys in X as [->|X]; [apply I; left; reflexivity|contradiction].
Qed.
Lemma put_length m g d : length (put_glyph m g d) = S (length m).
Proof. induction m as [|[k e] m IH]; cbn [put_glyph length]; [reflexivity|]. destruct (g <? k); cbn [length]; [reflexivity|]. rewrite IH. reflexivity. Qed.
Lemma few n l : NoDup l -> (forall k, In k l -> 0 <= k < n) -> Z.of_nat (length l) <= Z.max 0 n.
Proof.
  intros N R. assert (L : (length l <= length (map Z.of_nat (seq 0 (Z.to_nat n))))%nat).
  { apply NoDup_incl_length; [exact N|]. intros k I. specialize (R k I). apply in_map_iff. exists (Z.to_nat k). split; [lia|]. apply in_seq. lia. }
  rewrite map_length, seq_length in L. lia.
Qed.
Definition low (h : Z) (m : list (Z * gdata)) : Z := Z.of_nat (length (filter (fun k => k <? h) (keys m))).
Lemma low_put h m g d : low h (put_glyph m g d) = (if g <? h then 1 else 0) + low h m.
Proof.
  unfold low, keys. induction m as [|[k e] m IH]; cbn [put_glyph map fst filter]; [destruct (g <? h); reflexivity|]. destruct (g <? k); cbn [map fst filter].
  - destruct (g <? h), (k <? h); cbn [length]; lia.
  - destruct (k <? h); cbn [length]; lia.
Qed.
Lemma low_le h m : low h m <= Z.of_nat (length m).
Proof. unfold low, keys. rewrite <- (map_length fst m). induction (map fst m) as [|k l IH]; cbn [filter length]; [lia|]. destruct (k <? h); cbn [length]; lia. Qed.

(** ** Every font, valid or not: loading ends, and nothing is undefined *)
Definition few_keys (n : Z) (m : list (Z * gdata)) : Prop := NoDup (keys m) /\ forall k, In k (keys m) -> 0 <= k < n.
Lemma few_length n m : few_keys n m -> Z.of_nat (length m) <= Z.max 0 n.
Proof. intros [N R]. unfold keys in *. rewrite <- (map_length fst m). apply few; assumption. Qed.
Lemma few_put n m g d : few_keys n m -> 0 <= g < n -> ~ In g (keys m) -> few_keys n (put_glyph m g d).
Proof. intros [N R] G I. split; [apply put_nodup; assumption|]. intros k K. apply put_keys in K as [->|K]; [exact G|apply R; exact K]. Qed.
Definition tame {A} (r : res A) : Prop := match r with Fuel | UB => False | _ => True end.
Lemma rd_tame n f o : tame (rd n f o).
Proof. unfold rd. destruct (_ <? _); [exact Logic.I|]. destruct (_ <? _); exact Logic.I. Qed.
Lemma rd_bound n f o b : rd n f o = Ok b -> o + n <= size f.
Proof. unfold rd. rewrite !size_len. destruct (size f <? o) eqn:A; [discriminate|]. destruct (size f - o <? n) eqn:B; [discriminate|]. lia. Qed.
Lemma rd16_tame f o : tame (rd16 f o).
Proof. unfold rd16. pose proof (rd_tame 2 f o). destruct (rd 2 f o); exact H || exact Logic.I. Qed.
Lemma rd32_tame f o : tame (rd32 f o).
Proof. unfold rd32. pose proof (rd_tame 4 f o). destruct (rd 4 f o); exact H || exact Logic.I. Qed.
Lemma bind_tame {A B} (r : res A) (k : A -> res B) : tame r -> (forall a, r = Ok a -> tame (k a)) -> tame (do x <- r; k x).
Proof. intros H K. destruct r; cbn [bind]; [apply K; reflexivity|exact Logic.I|exact H|exact H]. Qed.
Lemma be_nonneg b : bytes_ok b -> forall v, 0 <= v -> 0 <= fold_left (fun v c => v * 256 + c) b v.
Proof. intros H. induction H as [|c b C H IH]; intros v V; [exact V|]. cbn [fold_left]. apply IH. unfold is_byte in C. lia. Qed.
Lemma rd16_nonneg f o v : bytes_ok f -> rd16 f o = Ok v -> 0 <= v.
Proof.
  intros H. unfold rd16. intros E. apply bind_ok in E as (b & E & X). injection X as <-. apply be_nonneg; [|lia]. unfold rd in E. destruct (_ <? _); [discriminate|]. destruct (_ <? _); [discriminate|]. injection E as <-. apply (bytes_slice f o 2 H).
Qed.
Lemma comps_tame f adv : size f < 2 ^ 31 -> forall fuel off, (Z.to_nat (size f - u32 (adv + off)) < fuel)%nat -> tame (snd (comps fuel f adv off)).
Proof.
  intros S. induction fuel as [|k IH]; intros off L; [lia|]. cbn [comps].
  destruct (rd16 f (u32 (adv + off))) as [fl| | |] eqn:E1; cbn [bind]; try exact Logic.I; try (pose proof (rd16_tame f (u32 (adv + off))) as X; rewrite E1 in X; exact X).
  destruct (rd16 f (u32 (adv + off) + 2)) as [g| | |] eqn:E2; cbn [bind]; try exact Logic.I; try (pose proof (rd16_tame f (u32 (adv + off) + 2)) as X; rewrite E2 in X; exact X).
  destruct (more fl); [|exact Logic.I]. assert (ST : 6 <= step fl <= 16) by (unfold step; destruct (Z.testbit fl 0), (Z.testbit fl 3), (Z.testbit fl 6), (Z.testbit fl 7); lia).
  assert (B : u32 (adv + off) + 2 + 2 <= size f) by (unfold rd16 in E2; apply bind_ok in E2 as (b & E2 & _); apply rd_bound in E2; exact E2).
  assert (N : u32 (adv + u32 (off + step fl)) = u32 (adv + off) + step fl). { unfold u32 in *. rewrite Zplus_mod_idemp_r. rewrite <- (Z.mod_small ((adv + off) mod 2 ^ 32 + step fl) (2 ^ 32)) by (pose proof (Z.mod_pos_bound (adv + off) (2 ^ 32) ltac:(lia)); lia). rewrite Zplus_mod_idemp_l. f_equal. lia. }
  assert (P : 0 <= u32 (adv + off)) by (unfold u32; apply Z.mod_pos_bound; lia). specialize (IH (u32 (off + step fl))). rewrite N in IH. specialize (IH ltac:(lia)). destruct (comps k f adv (u32 (off + step fl))). exact IH.
Qed.
Lemma components_tame f d : size f < 2 ^ 31 -> tame (snd (components f d)).
Proof. intros S. apply comps_tame; [exact S|]. assert (P : 0 <= u32 (gd_adv d + 0)) by (unfold u32; apply Z.mod_pos_bound; lia). unfold size in *. lia. Qed.
Lemma comps_nonneg f : bytes_ok f -> forall fuel adv off, Forall (fun c => 0 <= snd c) (fst (comps fuel f adv off)).
Proof.
  intros H. induction fuel as [|k IH]; intros adv off; [constructor|]. cbn [comps]. destruct (rd16 f _) as [fl| | |] eqn:E1; cbn [bind]; try constructor. destruct (rd16 f (_ + 2)) as [g| | |] eqn:E2; cbn [bind]; try constructor.
  apply rd16_nonneg in E2; [|exact H]. destruct (more fl); [|constructor; [exact E2|constructor]]. specialize (IH adv (u32 (off + step fl))). destruct (comps k f adv _). constructor; [exact E2|exact IH].
Qed.
Section Ends.
Variables (f : list Z) (fn : font).
Hypothesis (HB : bytes_ok f) (HS : size f < 2 ^ 31).
Lemma locate_tame g : tame (locate f fn g).
Proof.
  unfold locate. destruct (fn_long fn).
  - apply bind_tame; [apply rd32_tame|intros a _]. apply bind_tame; [apply rd32_tame|intros b _]. exact Logic.I.
  - apply bind_tame; [apply rd16_tame|intros a _]. apply bind_tame; [apply rd16_tame|intros b _]. exact Logic.I.
Qed.
Definition ends (m : list (Z * gdata)) (r : res (list (Z * gdata) * Z)) : Prop :=
  match r with Fuel | UB => False | Ok (m', _) => few_keys (fn_count fn) m' /\ (length m <= length m')%nat | _ => True end.
Lemma load_ends fuel : forall g m hm, 0 <= g -> few_keys (fn_count fn) m -> (Z.to_nat (Z.max 0 (fn_count fn)) - length m < fuel)%nat -> ends m (load_gid fuel f fn g (m, hm)).
Proof.
  induction fuel as [|k IH]; intros g m hm G F L; [lia|]. cbn [load_gid]. destruct (fn_count fn <=? g) eqn:R; [exact Logic.I|]. cbn [fst snd].
  destruct (find_glyph m g) as [d|] eqn:FG; [split; [exact F|lia]|]. apply find_none in FG. destruct (locate f fn g) as [[off ln]| | |] eqn:EL; cbn [bind]; try exact Logic.I; try (pose proof (locate_tame g) as X; rewrite EL in X; exact X).
  destruct (rd16 f off) as [cc| | |] eqn:EC; cbn [bind]; try exact Logic.I; try (pose proof (rd16_tame f off) as X; rewrite EC in X; exact X).
  set (d := mk_gd (2 ^ 15 <=? cc) off ln). set (hm1 := if g <? fn_hm fn then u16 (hm + 1) else hm). assert (F1 : few_keys (fn_count fn) (put_glyph m g d)) by (apply few_put; [exact F|lia|exact FG]).
  assert (L1 : length (put_glyph m g d) = S (length m)) by apply put_length. cbn [gd_comp d]. destruct (2 ^ 15 <=? cc); [|split; [exact F1|lia]].
  pose proof (components_tame f d HS) as CF. pose proof (comps_nonneg f HB (S (length f)) (gd_adv d) 0) as CN. fold (components f d) in CN. destruct (components f d) as [l e]. cbn [fst snd] in CF, CN.
  pose proof (few_length _ _ F1) as B1. assert (GO : forall l m1 hm, Forall (fun c => 0 <= snd c) l -> few_keys (fn_count fn) m1 -> (length m < length m1)%nat -> match (fix go (l : list (Z * Z)) st := match l with [] => Ok st | c :: r => do st <- load_gid k f fn (snd c) st; go r st end) l (m1, hm) with Fuel | UB => False | Ok (m', _) => few_keys (fn_count fn) m' /\ (length m1 <= length m')%nat | _ => True end).
  { clear l CN F1 L1 B1 hm1. induction l as [|c l IHl]; intros m1 h N F1 L1; [split; [exact F1|lia]|]. inversion N as [|c' l' N1 N2]; subst. pose proof (few_length _ _ F1) as B1. specialize (IH (snd c) m1 h N1 F1 ltac:(lia)). unfold ends in IH. destruct (load_gid k f fn (snd c) (m1, h)) as [[m2 h2]| | |]; cbn [bind]; try exact IH. destruct IH as [F2 L2].
    specialize (IHl m2 h2 N2 F2 ltac:(lia)). destruct ((fix go (l : list (Z * Z)) st := match l with [] => Ok st | c :: r => do st <- load_gid k f fn (snd c) st; go r st end) l (m2, h2)) as [[m3 h3]| | |]; try exact IHl. destruct IHl as [F3 L3]. split; [exact F3|lia]. }
  specialize (GO l (put_glyph m g d) hm1 CN F1 ltac:(lia)). destruct ((fix go (l : list (Z * Z)) st := match l with [] => Ok st | c :: r => do st <- load_gid k f fn (snd c) st; go r st end) l (put_glyph m g d, hm1)) as [[m3 h3]| | |]; cbn [bind]; try exact GO.
  destruct e as [u| | |]; cbn [bind]; try exact Logic.I; try exact CF. destruct GO as [F3 L3]. split; [exact F3|lia].
Qed.
Lemma load_all_ends l : forall m hm, Forall (fun g => 0 <= g) l -> few_keys (fn_count fn) m -> ends m (load_all f fn l (m, hm)).
Proof.
  induction l as [|g l IH]; intros m hm N F; [split; [exact F|lia]|]. inversion N as [|g' l' N1 N2]; subst. cbn [load_all]. pose proof (load_ends (S (S (Z.to_nat (fn_count fn)))) g m hm N1 F ltac:(lia)) as E. fold (load_top f fn) in E. unfold ends in E. destruct (load_top f fn g (m, hm)) as [[m1 h1]| | |]; cbn [bind]; try exact E. destruct E as [F1 L1].
  specialize (IH m1 h1 N2 F1). unfold ends in *. destruct (load_all f fn l (m1, h1)) as [[m2 h2]| | |]; try exact IH. destruct IH as [F2 L2]. split; [exact F2|lia].
Qed.
End Ends.

(** ** A valid font *)
Section Valid.
Variable f : list Z.
Hypothesis V : valid f.
Hypothesis EO : empty_ok f.
Notation fn := (the_font f).
Notation count := (glyph_count f).
(** [c] is a component of [g] *)
Definition part_of (g c : Z) : Prop := compound (glyph f g) = true /\ exists l p, parts (glyph f g) 10 l /\ In (p, c) l.
Lemma parts_same g o l l' : parts g o l -> parts g o l' -> l = l'.
Proof. intros H. revert l'. induction H as [o B F|o l B F P IH]; intros l' H'; inversion H'; subst; try congruence. f_equal. apply IH. assumption. Qed.
Definition good (m : list (Z * gdata)) : Prop := NoDup (keys m) /\ forall k d, In (k, d) m -> 0 <= k < count /\ d = data f k.
Lemma good_few m : good m -> few_keys count m.
Proof. intros [N G]. split; [exact N|]. intros k I. unfold keys in I. apply in_map_iff in I as ([k' d] & E & I). cbn [fst] in E. subst k'. apply (G k d I). Qed.
Lemma good_put m g : good m -> 0 <= g < count -> ~ In g (keys m) -> good (put_glyph m g (data f g)).
Proof. intros [N G] R I. split; [apply put_nodup; assumption|]. intros k d K. apply put_in in K as [K|K]; [injection K as -> ->; split; [exact R|reflexivity]|apply G; exact K]. Qed.
Lemma count16 : count < 65536. Proof. unfold glyph_count. apply at16_range, bytes_table, (v_bytes f V). Qed.
(** What loading from [m] to [m'] does *)
Record loads (starts : Z -> Prop) (m m' : list (Z * gdata)) : Prop := {
  l_good : good m';
  l_keep : forall k, In k (keys m) -> In k (keys m');
  l_starts : forall g, starts g -> In g (keys m');
  l_closed : forall k c, In k (keys m') -> ~ In k (keys m) -> part_of k c -> In c (keys m');
  l_only : forall P : Z -> Prop, (forall g, starts g -> P g) -> (forall a b, P a -> part_of a b -> P b) -> forall k, In k (keys m') -> In k (keys m) \/ P k }.
Lemma loads_length s m m' : good m -> loads s m m' -> (length m <= length m')%nat.
Proof. intros [N _] L. unfold keys in *. rewrite <- (map_length fst m), <- (map_length fst m'). apply NoDup_incl_length; [exact N|]. intros k I. apply (l_keep s m m' L). exact I. Qed.
Lemma loads_none m : good m -> loads (fun _ => False) m m.
Proof. intros G. constructor; [exact G|auto|contradiction|contradiction|]. intros P _ _ k I. left. exact I. Qed.
Lemma loads_more s1 s2 m m1 m2 : loads s1 m m1 -> loads s2 m1 m2 -> loads (fun g => s1 g \/ s2 g) m m2.
Proof.
  intros A B. constructor.
  - apply (l_good _ _ _ B).
  - intros k I. apply (l_keep _ _ _ B), (l_keep _ _ _ A), I.
  - intros g [S|S]; [apply (l_keep _ _ _ B), (l_starts _ _ _ A), S|apply (l_starts _ _ _ B), S].
  - intros k c I N P. destruct (in_dec Z.eq_dec k (keys m1)) as [I1|N1]; [apply (l_keep _ _ _ B), (l_closed _ _ _ A k c I1 N P)|apply (l_closed _ _ _ B k c I N1 P)].
  - intros P S C k I. destruct (l_only _ _ _ B P (fun g X => S g (or_intror X)) C k I) as [I1|Y]; [|right; exact Y]. exact (l_only _ _ _ A P (fun g X => S g (or_introl X)) C k I1).
Qed.
Lemma loads_ext (s s' : Z -> Prop) m m' : (forall g, s g <-> s' g) -> loads s m m' -> loads s' m m'.
Proof. intros E [A B C D F]. constructor; [exact A|exact B|intros g G; apply C, E, G|exact D|]. intros P S. apply F. intros g G. apply S, E, G. Qed.
Notation hm_of := (low (hcount f)).
Lemma load_ok fuel : forall g m, 0 <= g < count -> good m -> (Z.to_nat count - length m < fuel)%nat -> exists m', load_gid fuel f fn g (m, hm_of m) = Ok (m', hm_of m') /\ loads (eq g) m m'.
Proof.
  induction fuel as [|k IH]; intros g m R G L; [lia|]. cbn [load_gid fn_count the_font]. destruct (count <=? g) eqn:RR; [lia|]. cbn [fst snd]. destruct (find_glyph m g) as [d|] eqn:FG.
  - exists m. split; [reflexivity|]. apply find_in in FG. assert (K : In g (keys m)) by (unfold keys; apply in_map_iff; exists (g, d); split; [reflexivity|exact FG]).
    constructor; [exact G|auto|intros g' <-; exact K|contradiction|]. intros P _ _ k' I. left. exact I.
  - apply find_none in FG. rewrite (locate_ok f V g R). cbn [bind]. destruct (contours f V EO g R) as (cc & EC & CC). rewrite EC. cbn [bind]. rewrite CC. fold (data f g). cbn [fn_hm the_font].
    assert (G1 : good (put_glyph m g (data f g))) by (apply good_put; assumption). pose proof (few_length _ _ (good_few _ G1)) as B1. pose proof (put_length m g (data f g)) as L1. pose proof count16 as C16.
    assert (H1 : (if g <? hcount f then u16 (hm_of m + 1) else hm_of m) = hm_of (put_glyph m g (data f g))).
    { rewrite low_put. destruct (g <? hcount f); [|reflexivity]. pose proof (low_le (hcount f) m). assert (0 <= hm_of m) by (unfold low; lia). unfold u16. rewrite Z.mod_small by lia. lia. }
    rewrite H1. cbn [gd_comp data]. set (m1 := put_glyph m g (data f g)) in *.
    assert (ST : loads (eq g) m m1 \/ compound (glyph f g) = true).
    { destruct (compound (glyph f g)) eqn:CG; [right; reflexivity|left]. constructor; [exact G1|intros k' I; apply put_keys; right; exact I|intros g' <-; apply put_keys; left; reflexivity| |].
      - intros k' c I N [P1 P2]. apply put_keys in I as [->|I]; [congruence|contradiction].
      - intros P SP _ k' I. apply put_keys in I as [->|I]; [right; apply SP; reflexivity|left; exact I]. }
    destruct (compound (glyph f g)) eqn:CG; [clear ST|destruct ST as [ST|ST]; [exists m1; split; [reflexivity|exact ST]|discriminate]].
    destruct (v_parts f V g R CG) as (l & PL & FL). rewrite (components_ok f V g l R CG PL).
    assert (NN : Forall (fun c => 0 <= snd c < count) l). { apply Forall_forall. intros [p c] I. cbn [snd]. split; [|apply (proj1 (Forall_forall _ _) FL) in I; exact I]. assert (X : forall o l0, parts (glyph f g) o l0 -> Forall (fun c => 0 <= snd c) l0). { clear - V. intros o l0 X. induction X; constructor; try assumption; try constructor; cbn [snd]; apply at16_range, bytes_slice, bytes_table, (v_bytes f V). } apply (proj1 (Forall_forall _ _) (X 10 l PL) (p, c) I). }
    assert (GO : forall l2 m2, Forall (fun c => 0 <= snd c < count) l2 -> good m2 -> (length m1 <= length m2)%nat -> exists m3, (fix go (l : list (Z * Z)) st := match l with [] => Ok st | c :: r => do st <- load_gid k f fn (snd c) st; go r st end) (map (fun p : Z * Z => (goff f g + fst p - 2, snd p)) l2) (m2, hm_of m2) = Ok (m3, hm_of m3) /\ loads (fun c => In c (map snd l2)) m2 m3).
    { clear l PL FL NN. induction l2 as [|[p c] l2 IHl]; intros m2 F2 G2 L2; [exists m2; split; [reflexivity|apply loads_none; exact G2]|]. inversion F2 as [|x y F3 F4]; subst. cbn [map fst snd] in *. pose proof (few_length _ _ (good_few _ G2)) as B2. destruct (IH c m2 F3 G2 ltac:(lia)) as (m3 & E3 & D3). rewrite E3. cbn [bind].
      pose proof (loads_length _ _ _ G2 D3) as LL. destruct (IHl m3 F4 (l_good _ _ _ D3) ltac:(lia)) as (m4 & E4 & D4). exists m4. split; [exact E4|]. apply (loads_ext (fun g => c = g \/ In g (map snd l2))); [intros x; cbn [In]; tauto|]. exact (loads_more _ _ _ _ _ D3 D4). }
    destruct (GO l m1 NN G1 (le_n _)) as (m3 & E3 & D3). rewrite E3. cbn [bind]. exists m3. split; [reflexivity|]. constructor.
    + apply (l_good _ _ _ D3).
    + intros k' I. apply (l_keep _ _ _ D3), put_keys. right. exact I.
    + intros g' <-. apply (l_keep _ _ _ D3), put_keys. left. reflexivity.
    + intros k' c I N PO. destruct (in_dec Z.eq_dec k' (keys m1)) as [I1|N1]; [|exact (l_closed _ _ _ D3 k' c I N1 PO)]. apply put_keys in I1 as [->|I1]; [|contradiction]. destruct PO as [_ (l0 & p & P0 & I0)]. rewrite (parts_same _ _ _ _ P0 PL) in I0. apply (l_starts _ _ _ D3). apply in_map_iff. exists (p, c). split; [reflexivity|exact I0].
    + intros P SP CP k' I. assert (PG : P g) by (apply SP; reflexivity). destruct (l_only _ _ _ D3 P) with (k := k') as [I1|Y]; [|exact CP|exact I| |right; exact Y].
      * intros c Ic. apply in_map_iff in Ic as ([p c'] & E & Ic). cbn [snd] in E. subst c'. apply (CP g c PG). split; [exact CG|]. exists l, p. split; [exact PL|exact Ic].
      * apply put_keys in I1 as [->|I1]; [right; exact PG|left; exact I1].
Qed.
Lemma load_all_ok l : forall m, Forall (fun g => 0 <= g < count) l -> good m -> exists m', load_all f fn l (m, hm_of m) = Ok (m', hm_of m') /\ loads (fun g => In g l) m m'.
Proof.
  induction l as [|g l IH]; intros m F G; [exists m; split; [reflexivity|apply loads_none; exact G]|]. inversion F as [|x y F1 F2]; subst. cbn [load_all]. destruct (load_ok (S (S (Z.to_nat count))) g m F1 G ltac:(lia)) as (m1 & E1 & D1). unfold load_top. cbn [fn_count the_font]. rewrite E1. cbn [bind].
  destruct (IH m1 F2 (l_good _ _ _ D1)) as (m2 & E2 & D2). exists m2. split; [exact E2|]. apply (loads_ext (fun x => g = x \/ In x l)); [intros x; cbn [In]; tauto|]. exact (loads_more _ _ _ _ _ D1 D2).
Qed.
(** The glyphs loaded are those needed *)
Lemma loaded_needed gids : Forall (fun g => 0 <= g < count) gids -> exists m, load_all f fn (0 :: gids) ([], 0) = Ok (m, hm_of m) /\ good m /\ forall k, In k (keys m) <-> needed f gids k.
Proof.
  intros F. assert (Z0 : 0 <= 0 < count) by (pose proof (v_count f V); lia). assert (G0 : good []) by (split; [constructor|contradiction]). destruct (load_all_ok (0 :: gids) [] (Forall_cons 0 Z0 F) G0) as (m & E & D).
  exists m. change (hm_of []) with 0 in E. split; [exact E|]. split; [apply (l_good _ _ _ D)|]. intros k. split.
  - intros I. destruct (l_only _ _ _ D (needed f gids)) with (k := k) as [[]|N]; [| |exact I|exact N].
    + intros g [<-|Ig]; [apply N_zero|apply N_listed; exact Ig].
    + intros a b Na [C (l & p & P & Ip)]. exact (N_part f gids a l p b Na C P Ip).
  - intros N. induction N as [|g Ig|g l p c N IH C P Ip]; [apply (l_starts _ _ _ D); left; reflexivity|apply (l_starts _ _ _ D); right; exact Ig|]. apply (l_closed _ _ _ D g c IH); [intros []|]. split; [exact C|]. exists l, p. split; [exact P|exact Ip].
Qed.
End Valid.
