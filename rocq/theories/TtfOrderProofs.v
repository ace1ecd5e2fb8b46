(** The order of the glyphs of a subset, and the components numbered anew. *)
From Coq Require Import Lia String.
From Verif Require Import Base ChainProofs TtfModel TtfSpec TtfReadProofs TtfLoadProofs.
Local Open Scope Z_scope.

(** ** The order *)
Lemma index_some l : forall g i, index_of l g = Some i -> nth_error l (Z.to_nat i) = Some g /\ 0 <= i < size l.
Proof.
  unfold size. induction l as [|k l IH]; intros g i E; [discriminate|]. cbn [index_of] in E. destruct (Z.eqb_spec g k) as [->|N]; [injection E as <-; split; [reflexivity|cbn [length]; lia]|].
  destruct (index_of l g) as [j|] eqn:J; [|discriminate]. cbn [option_map] in E. injection E as <-. destruct (IH g j J) as [A B]. split; [|cbn [length]; lia]. replace (Z.to_nat (Z.succ j)) with (S (Z.to_nat j)) by lia. exact A.
Qed.
Lemma index_none l g : index_of l g = None <-> ~ In g l.
Proof.
  induction l as [|k l IH]; cbn [index_of In]; [tauto|]. destruct (Z.eqb_spec g k) as [->|N]; [split; [discriminate|intros H; exfalso; apply H; left; reflexivity]|]. destruct (index_of l g); cbn [option_map]; [split; [discriminate|]|split; [|reflexivity]].
  - intros H. exfalso. apply H. right. apply Decidable.not_not; [unfold Decidable.decidable; destruct (in_dec Z.eq_dec g l); tauto|]. intros X. apply IH in X. discriminate.
  - intros _ [E|I]; [congruence|]. apply IH in I; [exact I|reflexivity].
Qed.
Lemma nth_app (l r : list Z) k g : nth_error l k = Some g -> nth_error (l ++ r) k = Some g.
Proof. intros E. rewrite nth_error_app1; [exact E|]. apply nth_error_Some. congruence. Qed.
(** Adding one glyph *)
Lemma add_index_ok l g : NoDup l -> exists r i new, add_index l g = (l ++ r, i, new) /\ r = (if new then [g] else []) /\ NoDup (l ++ r) /\ nth_error (l ++ r) (Z.to_nat i) = Some g /\ 0 <= i < size (l ++ r) /\ (forall x, In x (l ++ r) <-> In x l \/ x = g).
Proof.
  intros N. unfold add_index. destruct (index_of l g) as [i|] eqn:E.
  - destruct (index_some l g i E) as [A B]. exists [], i, false. rewrite app_nil_r. split; [reflexivity|]. split; [reflexivity|]. split; [exact N|]. split; [exact A|]. split; [exact B|]. intros x. split; [tauto|]. intros [I| ->]; [exact I|]. apply nth_error_In in A. exact A.
  - apply index_none in E. exists [g], (len l), true. split; [reflexivity|]. split; [reflexivity|]. split. { rewrite <- (rev_involutive (l ++ [g])), rev_app_distr. apply NoDup_rev. cbn [rev app]. constructor; [rewrite <- in_rev; exact E|apply NoDup_rev; exact N]. }
    split; [|split; [unfold len, size; rewrite app_length; cbn [length]; lia|intros x; rewrite in_app_iff; cbn [In]; intuition]]. unfold len. rewrite Nat2Z.id, nth_error_app2 by lia. rewrite Nat.sub_diag. reflexivity.
Qed.
(** The listed glyphs, if they are distinct and not 0 *)
Lemma listed_ok gids : forall l, NoDup (l ++ gids) -> add_listed gids (l, l) = (l ++ gids, l ++ gids).
Proof.
  induction gids as [|g r IH]; intros l N; [cbn [add_listed]; rewrite app_nil_r; reflexivity|]. cbn [add_listed fst snd]. unfold add_index. destruct (index_of l g) as [i|] eqn:E.
  - exfalso. apply NoDup_remove_2 in N. apply N. apply in_or_app. left. apply index_some in E as [E _]. apply nth_error_In in E. exact E.
  - cbn [fst snd]. rewrite IH by (rewrite <- app_assoc; exact N). rewrite <- app_assoc. reflexivity.
Qed.
Section Valid.
Variable f : list Z.
Hypothesis V : valid f.
Notation count := (glyph_count f).
(** The components of one glyph *)
Lemma order_comps_ok i l : forall s, 0 <= goff f i -> goff f i + size (glyph f i) <= size f -> Forall (fun p => 2 <= fst p <= size (glyph f i)) l -> NoDup s -> exists r xs, order_comps (data f i) (s, s) (map (fun p => (goff f i + fst p - 2, snd p)) l) = (s ++ r, s ++ r, xs) /\ NoDup (s ++ r) /\ (forall x, In x (s ++ r) <-> In x s \/ In x (map snd l)) /\
  Forall2 (fun p x => fst x = fst p /\ 0 <= snd x < size (s ++ r) /\ nth_error (s ++ r) (Z.to_nat (snd x)) = Some (snd p)) l xs.
Proof.
  pose proof (v_size f V) as VS. induction l as [|[p c] l IH]; intros s G1 G2 F N.
  - exists [], []. cbn [map order_comps]. rewrite app_nil_r. split; [reflexivity|]. split; [exact N|]. split; [intros x; cbn [In]; tauto|constructor].
  - inversion F as [|x y F1 F2]; subst. cbn [fst] in F1. cbn [map order_comps fst snd]. unfold order_one. cbn [fst snd]. destruct (add_index_ok s c N) as (r1 & i1 & new & E & R1 & N1 & A1 & B1 & M1). rewrite E. cbn [fst snd].
    replace (if new then s ++ [c] else s) with (s ++ r1) by (rewrite R1; destruct new; [reflexivity|apply app_nil_r]). destruct (IH (s ++ r1) G1 G2 F2 N1) as (r & xs & E2 & N2 & M2 & X2). rewrite E2. rewrite <- app_assoc in *.
    exists (r1 ++ r), ((u32 (u32 (goff f i + p - 2 + 2) - gd_off (data f i)), i1) :: xs). split; [reflexivity|]. split; [exact N2|]. split; [|constructor; [|exact X2]].
    + intros x. rewrite M2, M1. cbn [map snd In]. intuition.
    + cbn [fst snd gd_off data]. split; [unfold u32; rewrite (Z.mod_small (_ + 2)) by lia; rewrite Z.mod_small by lia; lia|]. split; [unfold size in *; rewrite !app_length in *; lia|]. rewrite app_assoc. apply nth_app. exact A1.
Qed.
Lemma parts_in g o l : parts g o l -> 0 <= o -> Forall (fun p => o + 2 <= fst p /\ fst p + 2 <= size g) l.
Proof.
  intros P. induction P as [o B F|o l B F P IH]; intros O; constructor; cbn [fst]; try lia; [constructor|]. pose proof (part_pos (at16 g o)). eapply Forall_impl; [|apply IH; lia]. cbn beta. intros [p c]. cbn [fst]. lia.
Qed.
(** All the glyphs *)
Definition fixed (ord : list Z) (i : Z) (xs : list (Z * Z)) : Prop :=
  exists l, parts (glyph f i) 10 l /\ Forall2 (fun p x => fst x = fst p /\ 0 <= snd x < size ord /\ nth_error ord (Z.to_nat (snd x)) = Some (snd p)) l xs.
Lemma fixed_more ord r i xs : fixed ord i xs -> fixed (ord ++ r) i xs.
Proof. intros (l & P & F). exists l. split; [exact P|]. clear P. induction F as [|p x l xs (A & B & C) F IH]; constructor; [|exact IH]. split; [exact A|]. split; [unfold size in *; rewrite app_length; lia|apply nth_app; exact C]. Qed.
Lemma order_glyphs_ok m : forall s, good f m -> NoDup s -> exists r fx, order_glyphs f m (s, s) = Ok (s ++ r, s ++ r, fx) /\ NoDup (s ++ r) /\ (forall x, In x (s ++ r) <-> In x s \/ exists k, In k (keys m) /\ part_of f k x) /\
  (forall k, In k (keys m) -> compound (glyph f k) = true -> fixed (s ++ r) k (fix_of fx k)) /\ (forall k, In k (map fst fx) -> In k (keys m)).
Proof.
  induction m as [|[g d] m IH]; intros s [N G] NS.
  - exists [], []. cbn [order_glyphs]. rewrite app_nil_r. split; [reflexivity|]. split; [exact NS|]. split; [intros x; split; [tauto|]; intros [I|(k & [] & _)]; exact I|]. split; [contradiction|contradiction].
  - destruct (G g d (or_introl eq_refl)) as [R ->]. cbn [keys map fst] in N. apply NoDup_cons_iff in N as [NI N]. assert (G' : good f m) by (split; [exact N|intros k e I; apply G; right; exact I]). cbn [order_glyphs gd_comp data]. destruct (compound (glyph f g)) eqn:C.
    + destruct (v_parts f V g R C) as (l & PL & FL). fold (data f g). rewrite (components_ok f V g l R C PL). destruct (glyph_slice f V g R) as (_ & G1 & G2).
      destruct (order_comps_ok g l s G1 G2) as (r1 & xs & E1 & N1 & M1 & X1); [|exact NS|]. { eapply Forall_impl; [|exact (parts_in _ _ _ PL ltac:(lia))]. cbn beta. intros [p c]. cbn [fst]. lia. }
      rewrite E1. cbn [bind]. destruct (IH (s ++ r1) G' N1) as (r & fx & E2 & N2 & M2 & F2 & K2). rewrite E2. cbn [bind]. rewrite <- app_assoc in *. exists (r1 ++ r), ((g, xs) :: fx). split; [reflexivity|]. split; [exact N2|]. split; [|split].
      * intros x. rewrite M2, M1. cbn [keys map fst In]. split.
        -- intros [[I|I]|(k & I & P)]; [left; exact I| |right; exists k; split; [right; exact I|exact P]]. right. exists g. split; [left; reflexivity|]. apply in_map_iff in I as ([p c] & E & I). cbn [snd] in E. subst c. split; [exact C|]. exists l, p. split; [exact PL|exact I].
        -- intros [I|(k & [<-|I] & P)]; [left; left; exact I| |right; exists k; split; [exact I|exact P]]. left. right. destruct P as [_ (l0 & p & P0 & I0)]. rewrite (parts_same _ _ _ _ P0 PL) in I0. apply in_map_iff. exists (p, x). split; [reflexivity|exact I0].
      * intros k I Ck. cbn [fix_of]. destruct (Z.eqb_spec k g) as [->|NE].
        -- rewrite app_assoc. apply fixed_more. exists l. split; [exact PL|exact X1].
        -- destruct I as [E|I]; [cbn [fst] in E; congruence|]. apply F2; assumption.
      * intros k [E|I]; [left; exact E|right; apply K2; exact I].
    + destruct (IH s G' NS) as (r & fx & E2 & N2 & M2 & F2 & K2). rewrite E2. cbn [bind]. exists r, fx. split; [reflexivity|]. split; [exact N2|]. split; [|split].
      * intros x. rewrite M2. cbn [keys map fst In]. split; (intros [I|(k & I & P)]; [left; exact I|right; exists k]); [split; [right; exact I|exact P]|]. split; [|exact P]. destruct I as [<-|I]; [|exact I]. destruct P as [P _]. congruence.
      * intros k [E|I] Ck; [cbn [fst] in E; congruence|]. apply F2; assumption.
      * intros k I. right. apply K2. exact I.
Qed.

(** ** Changing the components *)
Lemma byte_app_l a b o : 0 <= o < size a -> byte (a ++ b) o = byte a o.
Proof. unfold byte, size. intros H. apply app_nth1. lia. Qed.
Lemma byte_app_r a b o : size a <= o -> byte (a ++ b) o = byte b (o - size a).
Proof. unfold byte, size. intros H. rewrite app_nth2 by lia. f_equal. lia. Qed.
Lemma patch_ok b o x : 0 <= o -> o + size x <= size b -> exists b', patch b o x = Ok b' /\ size b' = size b /\ (forall i, 0 <= i -> i < o \/ o + size x <= i -> byte b' i = byte b i) /\ (forall i, o <= i < o + size x -> byte b' i = byte x (i - o)) /\ b' = slice b 0 o ++ x ++ skipn (Z.to_nat o + length x) b.
Proof.
  intros A B. pose proof (size_nonneg x). unfold patch. rewrite (size_len x), (size_len b). destruct (o + size x <=? size b) eqn:E; [|lia]. eexists. split; [reflexivity|].
  assert (S1 : size (firstn (Z.to_nat o) b) = o) by (unfold size in *; rewrite firstn_length; lia).
  split; [unfold size in *; rewrite !app_length, firstn_length, skipn_length; lia|]. split; [|split; [|reflexivity]].
  - intros i I [L|L]; [rewrite byte_app_l by lia; unfold byte; apply nth_firstn; lia|]. rewrite byte_app_r by lia. rewrite byte_app_r by (rewrite S1; lia). rewrite S1. unfold byte. rewrite nth_skipn. f_equal. unfold size in *. lia.
  - intros i L. rewrite byte_app_r by lia. rewrite S1. apply byte_app_l. lia.
Qed.
Lemma be16_value b o v : 0 <= v < 65536 -> byte b o = byte (be16 v) 0 -> byte b (o + 1) = byte (be16 v) 1 -> at16 b o = v.
Proof. intros H A B. unfold at16. rewrite A, B. unfold byte, be16. change (nth (Z.to_nat 0) [v / 256 mod 256; v mod 256] 0) with (v / 256 mod 256). change (nth (Z.to_nat 1) [v / 256 mod 256; v mod 256] 0) with (v mod 256). pose proof (Z.div_mod v 256 ltac:(lia)). rewrite Z.mod_small by (split; [apply Z.div_pos; lia|apply Z.div_lt_upper_bound; lia]). lia. Qed.
(** The places are apart from each other *)
Inductive apart : Z -> list (Z * Z) -> Prop :=
| A_nil o : apart o []
| A_cons o p i l : o <= p -> apart (p + 2) l -> apart o ((p, i) :: l).
Lemma apart_le o o' l : o' <= o -> apart o l -> apart o' l.
Proof. intros L H. inversion H; subst; constructor; [lia|assumption]. Qed.
Lemma apart_in o l : apart o l -> forall p i, In (p, i) l -> o <= p.
Proof. intros H. induction H as [o|o p i l L H IH]; intros q j []; [injection H0 as <- <-; exact L|]. specialize (IH q j H0). lia. Qed.
Lemma patch_all_ok l : forall o b, 0 <= o -> apart o l -> Forall (fun x => fst x + 2 <= size b /\ 0 <= snd x < 65536) l -> exists b', patch_all b l = Ok b' /\ size b' = size b /\
  (forall j, 0 <= j -> (forall p i, In (p, i) l -> j <> p /\ j <> p + 1) -> byte b' j = byte b j) /\ (forall p i, In (p, i) l -> at16 b' p = i).
Proof.
  induction l as [|[p i] l IH]; intros o b O A F.
  - exists b. split; [reflexivity|]. split; [reflexivity|]. split; [reflexivity|contradiction].
  - inversion A as [|o' p' i' l' L A']; subst. inversion F as [|x y [F1 F1'] F2]; subst. cbn [fst snd] in F1, F1'. cbn [patch_all]. unfold u16. rewrite (Z.mod_small i) by lia. assert (SZ : size (be16 i) = 2) by reflexivity.
    destruct (patch_ok b p (be16 i)) as (b1 & E1 & S1 & O1 & I1 & _); [lia|lia|]. rewrite E1. cbn [bind]. destruct (IH (p + 2) b1 ltac:(lia) A') as (b2 & E2 & S2 & O2 & I2); [rewrite S1; exact F2|].
    rewrite SZ in *. exists b2. split; [exact E2|]. split; [congruence|]. split.
    + intros j J N. rewrite O2; [|exact J|intros q k Iq; apply (N q k); right; exact Iq]. apply O1; [exact J|]. destruct (N p i (or_introl eq_refl)). lia.
    + intros q k [E|Iq]; [|apply I2; exact Iq]. injection E as <- <-. apply be16_value; [exact F1'| |].
      * rewrite O2; [rewrite I1 by lia; f_equal; lia|lia|]. intros q k Iq. pose proof (apart_in _ _ A' q k Iq). lia.
      * rewrite O2; [rewrite I1 by lia; f_equal; lia|lia|]. intros q k Iq. pose proof (apart_in _ _ A' q k Iq). lia.
Qed.
Lemma parts_apart g o l xs : parts g o l -> map fst xs = map fst l -> apart (o + 2) xs.
Proof.
  intros P. revert xs. induction P as [o B F|o l B F P IH]; intros xs E.
  - destruct xs as [|[p i] [|]]; try discriminate. cbn [map fst] in E. injection E as ->. constructor; [lia|constructor].
  - destruct xs as [|[p i] xs]; [discriminate|]. cbn [map fst] in E. injection E as -> E. constructor; [lia|]. pose proof (part_pos (at16 g o)). eapply apart_le; [|apply IH; exact E]. lia.
Qed.
(** The flags are between the places *)
Lemma parts_flags g o l : parts g o l -> forall b, size b = size g -> (forall p q, In (q, p) l -> at16 b (q - 2) = at16 g (q - 2)) -> parts b o (map (fun p => (fst p, at16 b (fst p))) l).
Proof.
  intros P. induction P as [o B F|o l B F P IH]; intros b S H; cbn [map fst].
  - specialize (H (at16 g (o + 2)) (o + 2) (or_introl eq_refl)). replace (o + 2 - 2) with o in H by lia. apply P_last; [lia|rewrite H; exact F].
  - pose proof (H (at16 g (o + 2)) (o + 2) (or_introl eq_refl)) as H0. replace (o + 2 - 2) with o in H0 by lia. apply P_more; [lia|rewrite H0; exact F|]. rewrite H0. apply IH; [exact S|]. intros p q I. apply (H p q). right. exact I.
Qed.
Lemma parts_gaps g o l : parts g o l -> forall p c q d, In (p, c) l -> In (q, d) l -> o + 2 <= p /\ (p = q \/ p + 6 <= q \/ q + 6 <= p).
Proof.
  intros P. induction P as [o B F|o l B F P IH]; intros p c q d I J.
  - destruct I as [I|[]]. destruct J as [J|[]]. injection I as <- <-. injection J as <- <-. lia.
  - pose proof (part_pos (at16 g o)). destruct I as [I|I]; destruct J as [J|J].
    + injection I as <- <-. injection J as <- <-. lia.
    + injection I as <- <-. pose proof (IH q d q d J J). lia.
    + injection J as <- <-. pose proof (IH p c p c I I). lia.
    + pose proof (IH p c q d I J). lia.
Qed.
Lemma renumber_ok ord i xs : compound (glyph f i) = true -> fixed ord i xs -> size ord < 65536 -> exists b, patch_all (glyph f i) xs = Ok b /\ size b = size (glyph f i) /\ renumbered ord (glyph f i) b.
Proof.
  intros C (l & P & F2) SO. set (g := glyph f i) in *.
  assert (E : map fst xs = map fst l) by (clear - F2; induction F2 as [|p x l xs (A & _) F IH]; [reflexivity|cbn [map]; f_equal; assumption]).
  pose proof (parts_in _ _ _ P ltac:(lia)) as PI.
  assert (FX : Forall (fun x => fst x + 2 <= size g /\ 0 <= snd x < 65536) xs).
  { clear - F2 PI SO. induction F2 as [|p x l xs (A & B & _) F IH]; constructor; inversion PI; subst; [|apply IH; assumption]. rewrite A. lia. }
  destruct (patch_all_ok xs 12 g ltac:(lia) (parts_apart _ _ _ _ P E) FX) as (b & EB & SB & OB & IB). exists b. split; [exact EB|]. split; [exact SB|].
  assert (IN : forall q j, In (q, j) xs -> exists c, In (q, c) l). { intros q j I. assert (X : In q (map fst l)) by (rewrite <- E; apply in_map_iff; exists (q, j); split; [reflexivity|exact I]). apply in_map_iff in X as ([q' c] & Y & X). cbn [fst] in Y. subst q'. exists c. exact X. }
  unfold renumbered. rewrite C. split; [exact SB|]. exists l, (map (fun p => (fst p, at16 b (fst p))) l). split; [exact P|]. split; [|split; [|split]].
  - apply (parts_flags g); [exact P|exact SB|]. intros p q I. pose proof (parts_gaps _ _ _ P q p q p I I) as [L0 _]. unfold at16. rewrite (OB (q - 2)), (OB (q - 2 + 1)); [reflexivity|lia| |lia|].
    + intros q' j I'. destruct (IN q' j I') as [c Ic]. pose proof (parts_gaps _ _ _ P q p q' c I Ic). lia.
    + intros q' j I'. destruct (IN q' j I') as [c Ic]. pose proof (parts_gaps _ _ _ P q p q' c I Ic). lia.
  - rewrite map_map. reflexivity.
  - clear - F2 IB. assert (H : forall p i, In (p, i) xs -> at16 b p = i) by exact IB. clear IB. induction F2 as [|p x l xs (A & B & D) F IH]; cbn [map]; constructor; [|apply IH; intros q j I; apply H; right; exact I].
    cbn [snd]. rewrite <- A. rewrite (H (fst x) (snd x)); [exact D|left; destruct x; reflexivity].
  - intros o O N. apply OB; [lia|]. intros q j I. destruct (IN q j I) as [c Ic]. exact (N q c Ic).
Qed.
End Valid.
