(** Writing CMaps and reading them back. *)
From Coq Require Import Lia String Permutation.
From Verif Require Import Base TokModel ReadEq WriteModel DictProofs TokProofs LexProofs ObjSpec ParseProofs TextModel TextSpec TextProofs CodeModel CodeSpec CodeProofs CodePropLemmas CMapModel CMapSpec CMapProofs CMapTextProofs CMapPropLemmas.
Local Open Scope Z_scope.

(** ** The text written *)
Definition entry_ok (q : code * list Z) : Prop := code_ok (fst q) /\ scalars (snd q) /\ snd q <> [].
Lemma word_of_code b c : blank b -> code_ok c -> is_code (b, code_word c) /\ word_code (b, code_word c) = c.
Proof.
  intros B C. destruct (code_bytes_ok c C) as (BO & L & N). pose proof C as [SZ _]. unfold is_code, word_code, spaced_ok. cbn [fst snd]. unfold code_word. rewrite hex_meaning_bytes by exact BO.
  split; [split; [split; [exact B|exact (hex_bytes_word _ BO)]|lia]|]. rewrite N, L, Z2Nat.id by lia. destruct c; reflexivity.
Qed.
Definition sp_code (b : list Z) (c : code) : spaced := (b, code_word c).
Definition sp_char (q : code * list Z) : spaced * spaced := (([10], code_word (fst q)), ([32], points_text (snd q))).
Lemma sp_char_means q : entry_ok q -> char_means (sp_char q) q.
Proof.
  intros (C & S1 & N). unfold char_means, sp_char. cbn [fst snd]. destruct (word_of_code [10] (fst q) ltac:(repeat constructor) C) as [I E]. split; [exact I|]. split; [|split; [exact N|symmetry; exact E]].
  unfold is_text, spaced_ok. cbn [fst snd]. split; [split; [repeat constructor|exact (points_word _ S1)]|]. split; [exact S1|exact (points_meaning _ S1)].
Qed.
Lemma write_chars_text m : Forall entry_ok m -> exists t, write_chars m = Ok t /\ 10 :: t = flat_map char_text (map sp_char m) ++ [10].
Proof.
  induction m as [|[c cps] m IH]; intros F; [exists []; split; reflexivity|]. assert (Q : entry_ok (c, cps)) by (inversion F; assumption). assert (F' : Forall entry_ok m) by (inversion F; assumption). destruct (IH F') as (t & E & T).
  destruct Q as (C & _). cbn [fst] in C. cbn [write_chars]. rewrite (write_code_ok c C). cbn [bind]. rewrite E. cbn [bind]. eexists. split; [reflexivity|]. cbn [map flat_map]. unfold char_text at 1, spaced_text, sp_char, write_points. cbn [fst snd app].
  rewrite <- !app_assoc. cbn [app]. rewrite <- !app_assoc. cbn [app]. rewrite T. repeat (rewrite <- ?app_assoc; cbn [app]). reflexivity.
Qed.
Fixpoint sp_ranges (b : list Z) (rs : list (code * code)) : list (spaced * spaced) :=
  match rs with [] => [] | (x, y) :: r => (sp_code b x, sp_code [] y) :: sp_ranges [10] r end.
Definition pair_ok (x : code * code) : Prop := code_ok (fst x) /\ code_ok (snd x).
Lemma write_ranges_text rs : Forall pair_ok rs -> forall b, exists t, write_ranges rs = Ok t /\ (rs <> [] -> b ++ t = flat_map char_text (sp_ranges b rs)) /\ (rs = [] -> t = []).
Proof.
  induction rs as [|[x y] rs IH]; intros F b; [exists []; split; [reflexivity|split; [contradiction|reflexivity]]|]. assert (Q : pair_ok (x, y)) by (inversion F; assumption). assert (F' : Forall pair_ok rs) by (inversion F; assumption). destruct Q as [X Y]. cbn [fst snd] in X, Y.
  destruct (IH F' [10]) as (t & E & T & T0). cbn [write_ranges]. rewrite (write_code_ok x X), (write_code_ok y Y). cbn [bind]. rewrite E. cbn [bind]. eexists. split; [reflexivity|]. split; [|discriminate]. intros _.
  cbn [sp_ranges flat_map]. unfold char_text at 1, spaced_text, sp_code. cbn [fst snd app]. destruct rs as [|r rs].
  - cbn [sp_ranges flat_map]. rewrite !app_nil_r. repeat (rewrite <- ?app_assoc; cbn [app]). reflexivity.
  - rewrite <- T by discriminate. repeat (rewrite <- ?app_assoc; cbn [app]). reflexivity.
Qed.
Lemma sp_ranges_ok rs : Forall pair_ok rs -> forall b, blank b -> Forall both_codes (sp_ranges b rs) /\ flat_map codes_of (sp_ranges b rs) = flat_map (fun x => [fst x; snd x]) rs.
Proof.
  induction rs as [|[x y] rs IH]; intros F b B; [split; [constructor|reflexivity]|]. assert (Q : pair_ok (x, y)) by (inversion F; assumption). assert (F' : Forall pair_ok rs) by (inversion F; assumption). destruct Q as [X Y]. cbn [fst snd] in X, Y.
  destruct (IH F' [10] ltac:(repeat constructor)) as [A D]. destruct (word_of_code b x B X) as [X1 X2]. destruct (word_of_code [] y ltac:(constructor) Y) as [Y1 Y2]. cbn [sp_ranges flat_map]. split; [constructor; [split; assumption|exact A]|]. rewrite D. unfold codes_of, sp_code. cbn [fst snd]. rewrite X2, Y2. reflexivity.
Qed.
(** The ranges are made of codes of the map *)
Lemma add_range_in c x : forall rs, In x (add_range rs c) -> (fst x = c \/ exists y, In y rs /\ (fst x = fst y \/ fst x = snd y)) /\ (snd x = c \/ exists y, In y rs /\ (snd x = fst y \/ snd x = snd y)).
Proof.
  induction rs as [|[a b] rs IH]; cbn [add_range].
  - intros [<-|[]]. auto.
  - destruct (c_size a =? c_size c).
    + intros [<-|I].
      * cbn [fst snd]. split; [destruct (c_num c <? c_num a)|destruct (c_num b <? c_num c)]; auto; right; exists (a, b); (split; [left; reflexivity|auto]).
      * split; right; exists x; (split; [right; exact I|auto]).
    + intros [<-|I]; [split; right; exists (a, b); (split; [left; reflexivity|auto])|]. destruct (IH I) as [A B]. split; [destruct A as [A|(y & Iy & A)]|destruct B as [B|(y & Iy & B)]]; auto; right; exists y; (split; [right; exact Iy|assumption]).
Qed.
Lemma code_ranges_in m : forall x, In x (code_ranges m) -> (exists p, In (fst x, p) m) /\ exists p, In (snd x, p) m.
Proof.
  unfold code_ranges. assert (G : forall (m : list (code * list Z)) rs x, In x (fold_left (fun rs p => add_range rs (fst p)) m rs) -> (In (fst x) (map fst m) \/ exists y, In y rs /\ (fst x = fst y \/ fst x = snd y)) /\ (In (snd x) (map fst m) \/ exists y, In y rs /\ (snd x = fst y \/ snd x = snd y))).
  { clear m. intros m. induction m as [|[c p] m IH]; intros rs x I; cbn [fold_left fst map] in *.
    - split; right; exists x; auto.
    - destruct (IH _ _ I) as [A B]. split; [destruct A as [A|(y & Iy & A)]|destruct B as [B|(y & Iy & B)]]; try (left; right; assumption); destruct (add_range_in c y rs Iy) as [P Q].
      + destruct A as [-> | ->]; [destruct P as [->|P]|destruct Q as [->|Q]]; auto; left; left; reflexivity.
      + destruct B as [-> | ->]; [destruct P as [->|P]|destruct Q as [->|Q]]; auto; left; left; reflexivity. }
  intros x I. destruct (G m [] x I) as [A B]. assert (H : forall z, In z (map fst m) -> exists p, In (z, p) m).
  { intros z Iz. apply List.in_map_iff in Iz as ([a p] & <- & Iz). exists p. exact Iz. }
  split; [destruct A as [A|(y & [] & _)]|destruct B as [B|(y & [] & _)]]; apply H; assumption.
Qed.

(** ** The map read *)
Lemma put_last m : forall c v, (forall k w, In (k, w) m -> c_num k < c_num c) -> put_code m c v = m ++ [(c, v)].
Proof.
  induction m as [|[k w] m IH]; intros c v L; [reflexivity|]. cbn [put_code app]. pose proof (L k w (or_introl eq_refl)). rewrite (proj2 (Z.ltb_ge _ _)) by lia. rewrite (proj2 (Z.ltb_lt _ _)) by lia. rewrite IH; [reflexivity|]. intros k' w' I. apply (L k' w'). right. exact I.
Qed.
Lemma reach_map m ps : reach m ps -> m_map m = fold_left (fun a q => put_code a (fst q) (snd q)) ps [].
Proof.
  induction 1 as [|s ps c p s' R IH P|s ps sh text R IH SH|s ps sh text R IH SH|s ps sh cp R IH SH].
  - reflexivity.
  - rewrite fold_left_app. cbn [fold_left fst snd]. rewrite <- IH. unfold push in P. destruct p; [discriminate|]. destruct (c_size c =? 0); [discriminate|]. injection P as <-. reflexivity.
  - cbn [next_code fst]. unfold revise. destruct (m_dirty s); exact IH.
  - cbn [code_of_text fst]. unfold revise. destruct (m_dirty s); exact IH.
  - cbn [code_of_point fst]. unfold revise. destruct (m_dirty s); exact IH.
Qed.
Lemma fold_put m : forall a, ordered m -> (forall k w c v, In (k, w) a -> In (c, v) m -> c_num k < c_num c) -> fold_left (fun a q => put_code a (fst q) (snd q)) m a = a ++ m.
Proof.
  induction m as [|[c v] m IH]; intros a O L; [symmetry; apply app_nil_r|]. cbn [fold_left fst snd]. inversion O as [|? ? ? LO O']; subst. rewrite put_last by (intros k w I; exact (L k w c v I (or_introl eq_refl))). rewrite IH.
  - rewrite <- app_assoc. reflexivity.
  - exact O'.
  - intros k w c' v' I I'. apply in_app_or in I as [I|[I|[]]]; [apply (L k w c' v' I); right; exact I'|]. injection I as <- <-. exact (LO c' v' I').
Qed.
(** The limits of a list of pushes depend on the list only *)
Lemma lim_unique l l' ps : lim_ok l ps -> lim_ok l' ps -> l_min l = l_min l' /\ l_max l = l_max l'.
Proof.
  intros (A & B & C) (A' & B' & C'). destruct ps as [|q ps]; [rewrite (C eq_refl), (C' eq_refl); auto|]. destruct (B ltac:(discriminate)) as [(x & Ix & Ex) (y & Iy & Ey)]. destruct (B' ltac:(discriminate)) as [(x' & Ix' & Ex') (y' & Iy' & Ey')].
  pose proof (A x' Ix'). pose proof (A' x Ix). pose proof (A y' Iy'). pose proof (A' y Iy). lia.
Qed.
Lemma lim_map s ps : reach s ps -> consistent ps -> Forall (fun q => 1 <= c_size (fst q) <= 255) ps -> lim_ok (m_limits s) (m_map s).
Proof.
  intros R C B. pose proof (reach_inv s ps R) as I. destruct (reach_limits s ps R B) as (A1 & A2 & A3). pose proof I as (O & G & FC & _).
  assert (K : forall q, In q (m_map s) -> exists w, In (fst q, w) ps).
  { intros [k p] Iq. cbn [fst]. pose proof (in_find _ _ _ O Iq) as E. specialize (FC k). rewrite E in FC. destruct FC as (k' & _ & _ & w & Iw). exists w. exact Iw. }
  assert (K2 : forall q, In q ps -> exists r, In r (m_map s) /\ c_size (fst r) = c_size (fst q)).
  { intros [c p] Iq. destruct (stands_exists ps c) as (k & p' & NK & ST); [exists (c, p); auto|]. pose proof (proj2 (CodeProofs.in_map_iff s ps k p' I C) ST) as Ik. exists (k, p'). split; [exact Ik|]. apply (C (k, p') (c, p)); [exact (stands_in _ _ _ ST)|exact Iq|exact NK]. }
  split; [|split].
  - intros q Iq. destruct (K q Iq) as (w & Iw). exact (A1 _ Iw).
  - intros N. destruct ps as [|q0 ps0]; [exfalso; destruct (m_map s) as [|q m]; [contradiction|]; destruct (K q (or_introl eq_refl)) as (w & []) |]. destruct (A2 ltac:(discriminate)) as [(x & Ix & Ex) (y & Iy & Ey)].
    destruct (K2 x Ix) as (r & Ir & Er). destruct (K2 y Iy) as (r' & Ir' & Er'). split; [exists r|exists r']; split; try assumption; congruence.
  - intros E. apply A3. destruct ps as [|q ps]; [reflexivity|]. destruct (K2 q (or_introl eq_refl)) as (r & Ir & _). rewrite E in Ir. destruct Ir.
Qed.
Lemma notes_min cs : forall l, cl_min (notes l cs) <= cl_min l /\ (forall c, In c cs -> cl_min (notes l cs) <= c_size c) /\ (cl_min (notes l cs) = cl_min l \/ exists c, In c cs /\ cl_min (notes l cs) = c_size c) /\
  cl_max l <= cl_max (notes l cs) /\ (forall c, In c cs -> c_size c <= cl_max (notes l cs)) /\ (cl_max (notes l cs) = cl_max l \/ exists c, In c cs /\ cl_max (notes l cs) = c_size c).
Proof.
  induction cs as [|c cs IH]; intros l; unfold notes; cbn [fold_left].
  - repeat split; try lia; try (intros c []); left; reflexivity.
  - fold (notes (note l c) cs). destruct (IH (note l c)) as (A & B & C & D & E & F). set (r := notes (note l c) cs) in *. unfold note in A, C, D, F. cbn [cl_min cl_max] in A, C, D, F.
    destruct (Z.ltb_spec (c_size c) (cl_min l)), (Z.ltb_spec (cl_max l) (c_size c)); (split; [lia|]); (split; [intros x [<-|I]; [lia|exact (B x I)]|]);
    (split; [destruct C as [C|(x & Ix & C)]; [first [left; exact C|right; exists c; split; [left; reflexivity|exact C]]|right; exists x; split; [right; exact Ix|exact C]]|]); (split; [lia|]); (split; [intros x [<-|I]; [lia|exact (E x I)]|]);
    (destruct F as [F|(x & Ix & F)]; [first [left; exact F|right; exists c; split; [left; reflexivity|exact F]]|right; exists x; split; [right; exact Ix|exact F]]).
Qed.

(** ** Reading back *)
Lemma entries_ok s ps : reach s ps -> Forall (fun q => code_ok (fst q) /\ scalars (snd q)) ps -> Forall entry_ok (m_map s).
Proof.
  intros R F. rewrite Forall_forall in F. apply Forall_forall. intros [k p] I. destruct (reach_inv s ps R) as (O & G & FC & _). pose proof (in_find _ _ _ O I) as E. specialize (FC k). rewrite E in FC. destruct FC as (k' & _ & ST & w & Iw).
  split; [exact (proj1 (F _ Iw))|]. split; [exact (proj2 (F _ (stands_in _ _ _ ST)))|]. exact (proj2 (G k p I)).
Qed.
Definition encoding_limits (e : encoding) : limits := match e with EIdentity l | EMap _ l => l end.
Lemma identity_points m : forall prev c p, is_identity prev m = true -> In (c, p) m -> p <> [] -> p = [c_num c].
Proof.
  induction m as [|[k v] m IH]; intros prev c p E I N; [destruct I|]. cbn [is_identity] in E. destruct (Z.ltb_spec 1 (Z.of_nat (length v))); [discriminate|]. destruct (Z.eqb_spec (c_num k) (hd 0 v)) as [E2|]; [|discriminate]. cbn [orb negb] in E. destruct (_ <? c_num k); [discriminate|].
  destruct I as [I|I]; [injection I as -> ->|exact (IH _ _ _ E I N)]. destruct p as [|a [|b p]]; [contradiction|cbn in E2; congruence|cbn [length] in *; lia].
Qed.
Lemma read_back s ps order : reach s ps -> consistent ps -> Forall (fun q => code_ok (fst q) /\ scalars (snd q)) ps -> (forall rs, Permutation rs (order rs)) -> Z.of_nat (length (m_map s)) < 2 ^ 63 ->
  exists text e, write_map order s = Ok text /\ create_from_object text = Ok e /\ l_min (encoding_limits e) = l_min (m_limits s) /\ l_max (encoding_limits e) = l_max (m_limits s) /\
    match e with EMap m _ => reach m (m_map s) /\ m_map m = m_map s | EIdentity _ => forall c p, In (c, p) (m_map s) -> p = [c_num c] end.
Proof.
  intros R C F PO LB. pose proof (entries_ok s ps R F) as EO. pose proof (reach_inv s ps R) as (O & G & _).
  set (rs := order (code_ranges (m_map s))). assert (RI : forall x, In x rs -> (exists p, In (fst x, p) (m_map s)) /\ exists p, In (snd x, p) (m_map s)).
  { intros x I. apply code_ranges_in. apply (Permutation_in x (Permutation_sym (PO _))). exact I. }
  assert (RO : Forall pair_ok rs).
  { apply Forall_forall. intros x I. destruct (RI x I) as [(p & Ip) (q & Iq)]. rewrite Forall_forall in EO. split; [exact (proj1 (EO _ Ip))|exact (proj1 (EO _ Iq))]. }
  destruct (write_ranges_text rs RO []) as (tr & ER & TR & TR0). destruct (write_chars_text (m_map s) EO) as (tc & EC & TC).
  assert (TR' : tr = flat_map char_text (sp_ranges [] rs)) by (destruct rs as [|r rs']; [rewrite (TR0 eq_refl); reflexivity|exact (TR ltac:(discriminate))]).
  destruct (sp_ranges_ok rs RO [] ltac:(constructor)) as [SR SC].
  set (p := mk_part [10] (Z.of_nat (length (m_map s))) [32] (BChars (map sp_char (m_map s))) [10]).
  assert (PM : part_means range_does p (m_map s)).
  { unfold part_means, p. cbn [p_b1 p_n p_b2 p_body p_b3]. assert (W : forall x, is_ws x = true -> white [x]) by (intros x Hx; split; [repeat constructor; exact Hx|discriminate]). split; [apply W; reflexivity|]. split; [apply W; reflexivity|]. split; [apply W; reflexivity|]. split; [lia|].
    clear - EO. induction EO as [|q m Q F IH]; constructor; [exact (sp_char_means q Q)|exact IH]. }
  assert (TX : write_map order s = Ok (cmap_text (sp_ranges [] rs) [10] [p])).
  { unfold write_map. fold rs. rewrite ER. cbn [bind]. unfold write_entries. rewrite EC. cbn [bind]. f_equal. unfold unicode_cmap, cmap_text, p, nl. rewrite TR'. cbn [flat_map]. unfold part_text. cbn [p_b1 p_n p_b2 p_body p_b3].
    rewrite app_nil_r. f_equal. f_equal. f_equal. f_equal. rewrite <- !app_assoc. f_equal. f_equal. change (bs " beginbfchar") with ([32] ++ bs "beginbfchar"). rewrite <- !app_assoc. f_equal. f_equal. change (10 :: tc ++ bs "endbfchar") with ((10 :: tc) ++ bs "endbfchar"). rewrite TC.
    rewrite <- !app_assoc. reflexivity. }
  destruct (cmap_reads (sp_ranges [] rs) [10] [p] [m_map s] SR ltac:(repeat constructor) ltac:(constructor; [exact PM|constructor])) as (m & EP & RM). cbn [concat] in RM. rewrite app_nil_r in RM.
  assert (MM : m_map m = m_map s) by (rewrite (reach_map m _ RM), fold_put; [reflexivity|exact O|intros k w c v []]).
  set (cl := notes new_limits (flat_map codes_of (sp_ranges [] rs) ++ flat_map part_codes [p])) in *.
  assert (CI : forall c, In c (flat_map codes_of (sp_ranges [] rs) ++ flat_map part_codes [p]) -> exists q, In (c, q) (m_map s)).
  { intros c I. apply in_app_or in I as [I|I].
    - rewrite SC in I. apply in_flat_map in I as (x & Ix & I). destruct (RI x Ix) as [A B]. destruct I as [<-|[<-|[]]]; assumption.
    - cbn [flat_map part_codes p p_body] in I. rewrite app_nil_r in I. apply in_flat_map in I as (x & Ix & [<-|[]]). apply List.in_map_iff in Ix as ([k v] & <- & Ik). rewrite Forall_forall in EO.
      unfold sp_char. cbn [fst]. rewrite (proj2 (word_of_code [10] k ltac:(repeat constructor) (proj1 (EO _ Ik)))). exists v. exact Ik. }
  assert (B255 : Forall (fun q => 1 <= c_size (fst q) <= 255) (m_map s)).
  { revert EO. apply Forall_impl. intros q ([SZ _] & _). lia. }
  assert (B255' : Forall (fun q => 1 <= c_size (fst q) <= 255) ps).
  { revert F. apply Forall_impl. intros q ([SZ _] & _). lia. }
  assert (LM : l_min (m_limits m) = l_min (m_limits s) /\ l_max (m_limits m) = l_max (m_limits s)) by (exact (lim_unique _ _ _ (reach_limits m _ RM B255) (lim_map s ps R C B255'))).
  destruct (reach_limits m _ RM B255) as (LA & LB1 & LC). destruct (notes_min (flat_map codes_of (sp_ranges [] rs) ++ flat_map part_codes [p]) new_limits) as (N1 & N2 & N3 & N4 & N5 & N6). fold cl in N1, N2, N3, N4, N5, N6. cbn [new_limits cl_min cl_max] in N1, N3, N4, N6.
  assert (MIN : (if cl_min cl <? l_min (m_limits m) then cl_min cl else l_min (m_limits m)) = l_min (m_limits m)).
  { destruct (Z.ltb_spec (cl_min cl) (l_min (m_limits m))) as [H|]; [|reflexivity]. destruct N3 as [N3|(c & Ic & N3)].
    - destruct (m_map s) as [|q mm] eqn:EM; [rewrite (LC eq_refl) in H; cbn [default_limits l_min] in H; lia|]. pose proof (LA q (or_introl eq_refl)). rewrite Forall_forall in B255. pose proof (B255 q (or_introl eq_refl)). lia.
    - destruct (CI c Ic) as (q & Iq). pose proof (LA _ Iq). cbn [fst] in *. lia. }
  assert (MAX : (if l_max (m_limits m) <? cl_max cl then cl_max cl else l_max (m_limits m)) = l_max (m_limits m)).
  { destruct (Z.ltb_spec (l_max (m_limits m)) (cl_max cl)) as [H|]; [|reflexivity]. destruct N6 as [N6|(c & Ic & N6)].
    - destruct (m_map s) as [|q mm] eqn:EM; [rewrite (LC eq_refl) in H; cbn [default_limits l_max] in H; lia|]. pose proof (LA q (or_introl eq_refl)). rewrite Forall_forall in B255. pose proof (B255 q (or_introl eq_refl)). lia.
    - destruct (CI c Ic) as (q & Iq). pose proof (LA _ Iq). cbn [fst] in *. lia. }
  destruct LM as [LM1 LM2]. eexists. eexists. split; [exact TX|]. unfold create_from_object. rewrite EP. cbn [bind]. rewrite MIN, MAX. split; [reflexivity|]. rewrite <- LM1, <- LM2, MM. destruct (m_map s) as [|[k v] mm] eqn:EM; [cbn [encoding_limits l_min l_max]; auto|].
  rewrite <- EM in *. match goal with |- context [if ?b then _ else _] => destruct b eqn:EB end; cbn [encoding_limits l_min l_max]; (split; [reflexivity|]); (split; [reflexivity|]); [|auto].
  apply andb_prop in EB as [_ EI]. intros c q I. exact (identity_points _ _ c q EI I (proj2 (G c q I))).
Qed.

(** ** One byte encodings *)
Definition sp_point (cps : list Z) : spaced := ([10], points_text cps).
Definition one_byte_parts (a b : code) (texts : list (list Z)) : list part :=
  [mk_part [10] 1 [32] (BRanges [mk_range ([10], code_word a) ([32], code_word b) (DMany [32] (map sp_point texts) [10])]) [10]].
Lemma one_byte_list_text look : forall n c texts, length texts = n -> (forall i, (i < n)%nat -> look (c + Z.of_nat i) = nth_error texts i) -> exists t, one_byte_list look c n = Ok t /\ 10 :: t = flat_map spaced_text (map sp_point texts) ++ [10].
Proof.
  induction n as [|n IH]; intros c texts L F; (destruct texts as [|cps texts]; [|try discriminate]); try discriminate; [exists []; split; reflexivity|]. cbn [one_byte_list]. pose proof (F 0%nat ltac:(lia)) as F0. rewrite Z.add_0_r in F0. rewrite F0. cbn [nth_error].
  destruct (IH (c + 1) texts ltac:(cbn [length] in L; lia)) as (t & E & T).
  { intros i Hi. replace (c + 1 + Z.of_nat i) with (c + Z.of_nat (S i)) by lia. rewrite (F (S i) ltac:(lia)). reflexivity. }
  rewrite E. cbn [bind]. eexists. split; [reflexivity|]. cbn [map flat_map]. unfold spaced_text at 1, sp_point at 1, write_points. cbn [fst snd app]. repeat (rewrite <- ?app_assoc; cbn [app]). rewrite T. reflexivity.
Qed.
Lemma one_byte_text l look texts : code_ok (l_first l) -> code_ok (l_last l) -> c_num (l_first l) <= c_num (l_last l) -> Z.of_nat (length texts) = c_num (l_last l) - c_num (l_first l) ->
  (forall i, (i < length texts)%nat -> look (c_num (l_first l) + Z.of_nat i) = nth_error texts i) ->
  write_one_byte l look = Ok (cmap_text [(([], code_word (l_first l)), ([], code_word (l_last l)))] [10] (one_byte_parts (l_first l) (l_last l) texts)).
Proof.
  intros CA CB LE LT F. unfold write_one_byte, write_limits, one_byte_entries. rewrite (write_code_ok _ CA), (write_code_ok _ CB). cbn [bind]. rewrite <- LT, Nat2Z.id. destruct (one_byte_list_text look (length texts) (c_num (l_first l)) texts eq_refl F) as (t & E & T). rewrite E. cbn [bind]. f_equal.
  unfold unicode_cmap, cmap_text, one_byte_parts, nl. cbn [flat_map]. unfold part_text. cbn [p_b1 p_n p_b2 p_body p_b3 flat_map]. unfold range_text, char_text, spaced_text. cbn [r_lo r_hi r_dest fst snd dest_text app]. rewrite !app_nil_r. f_equal.
  change (dec 1) with (bs "1"). change (bs "1 beginbfrange") with (bs "1" ++ [32] ++ bs "beginbfrange"). change (bs " [") with [32; 91]. repeat (rewrite <- ?app_assoc; cbn [app]). do 9 f_equal.
  match goal with |- context [10 :: t ++ ?r] => change (10 :: t ++ r) with ((10 :: t) ++ r) end. rewrite T. repeat (rewrite <- ?app_assoc; cbn [app]). reflexivity.
Qed.
Lemma push_array_short lo size range : size <> 0 -> forall xs texts, Forall2 is_text xs texts -> forall m i, i + Z.of_nat (length xs) < range -> push_array m lo size i range (map (fun x => OStr true (hex_meaning (snd x))) xs) = Err EValueOutOfRange.
Proof.
  intros N xs texts F. induction F as [|x cps xs texts X F IH]; intros m i L; cbn [length] in L; cbn [map push_array]; rewrite (proj2 (Z.ltb_lt i range)) by lia; [reflexivity|]. rewrite (is_text_mapping x cps X). cbn [bind].
  assert (P : exists m', push_mapping m (mk_code (u32 (lo + i)) size) cps = Ok m').
  { unfold push_mapping, push. destruct cps; [eauto|]. cbn [c_size]. rewrite (proj2 (Z.eqb_neq _ _)) by exact N. eauto. }
  destruct P as (m' & ->). cbn [bind]. apply IH. lia.
Qed.
(** A section with one range whose array is too short *)
Lemma short_fails cs b p lo hi b' xs e texts : Forall both_codes cs -> blank b -> white (p_b1 p) -> white (p_b2 p) -> 0 <= p_n p < 2 ^ 63 -> p_body p = BRanges [mk_range lo hi (DMany b' xs e)] -> is_code lo -> is_code hi ->
  blank b' -> blank e -> Forall2 is_text xs texts -> Z.of_nat (length xs) < c_num (word_code hi) - c_num (word_code lo) + 1 < 2 ^ 32 -> parse_cmap (cmap_text cs b [p]) = Err EValueOutOfRange.
Proof.
  intros C B [B1 N1] W2 N EB CL CH B' BE F L. unfold parse_cmap, cmap_text. rewrite app_length. pose proof head_long as H. cbn [flat_map]. rewrite app_nil_r.
  remember (length unicode_head + length (flat_map char_text cs ++ b ++ bs "endcodespacerange" ++ part_text p ++ cmap_foot))%nat as n eqn:E. rewrite !app_length in E. pose proof (chars_len cs).
  replace (S n) with (19 + (S n - 19))%nat by lia. rewrite head_reads. match goal with |- context [mk_tst [] (10 :: ?x)] => change (10 :: x) with ([10] ++ x) end. rewrite codespace_blank by (repeat constructor).
  assert (ST : stops (part_text p ++ cmap_foot)) by (unfold part_text; rewrite <- !app_assoc; apply stops_white; split; assumption).
  rewrite codespace_reads by (try assumption; lia). cbn [bind]. assert (G : exists g, (S n - 19 = S (S (S g)))%nat) by (exists (S n - 22)%nat; lia). destruct G as (g & ->).
  unfold part_text. rewrite EB. rewrite <- !app_assoc. rewrite cmap_loop_S. cbn [cs_tok cs_map cs_lim]. rewrite ps_num by (try assumption; apply stops_white; exact W2). cbn [bind]. rewrite cmap_loop_S. cbn [cs_tok cs_map cs_lim]. cbn [flat_map]. rewrite app_nil_r.
  assert (ST2 : forall k, stops (range_text (mk_range lo hi (DMany b' xs e)) ++ k)) by (intros k; unfold range_text; rewrite <- !app_assoc; apply stops_word; apply CL).
  rewrite ps_key by (try apply ST2; try apply W2; exact key_begin_ranges). cbn [bind]. unfold section. rewrite (beq_refl (bs "beginbfrange")). change (beq (bs "beginbfrange") (bs "begincodespacerange")) with false. cbn iota.
  cbn [bfrange cs_tok cs_map cs_lim]. unfold range_text. cbn [r_lo r_hi r_dest dest_text]. rewrite <- (app_assoc (spaced_text lo)), <- (app_assoc (spaced_text hi)). rewrite seq_word by (apply CL). cbn [bind]. rewrite get_word by exact CL. cbn [bind]. rewrite var_word by (apply CH). cbn [bind]. rewrite get_word by exact CH. cbn [bind].
  assert (FX : Forall spaced_ok xs).
  { clear - F. induction F as [|x q xs ps X F IH]; constructor; [exact (proj1 X)|exact IH]. }
  rewrite var_array by assumption. cbn [bind bf_destination]. destruct (word_bound _ CL) as [_ SZ]. unfold u32. rewrite Z.mod_small by lia.
  rewrite (push_array_short _ (c_size (word_code lo)) (c_num (word_code hi) - c_num (word_code lo) + 1) ltac:(lia) xs texts F) by lia. reflexivity.
Qed.
Lemma one_byte_fails l look texts : code_ok (l_first l) -> code_ok (l_last l) -> c_num (l_first l) <= c_num (l_last l) < 256 -> Z.of_nat (length texts) = c_num (l_last l) - c_num (l_first l) -> Forall scalars texts ->
  (forall i, (i < length texts)%nat -> look (c_num (l_first l) + Z.of_nat i) = nth_error texts i) ->
  exists text, write_one_byte l look = Ok text /\ parse_cmap text = Err EValueOutOfRange.
Proof.
  intros CA CB LE LT SC F. eexists. split; [exact (one_byte_text l look texts CA CB (proj1 LE) LT F)|]. assert (BL : forall x, is_ws x = true -> blank [x]) by (intros x Hx; repeat constructor; exact Hx). assert (WH : forall x, is_ws x = true -> white [x]) by (intros x Hx; split; [apply BL; exact Hx|discriminate]).
  destruct (word_of_code [] (l_first l) ltac:(constructor) CA) as [A1 A2]. destruct (word_of_code [] (l_last l) ltac:(constructor) CB) as [B1 B2]. destruct (word_of_code [10] (l_first l) (BL 10 eq_refl) CA) as [A3 A4]. destruct (word_of_code [32] (l_last l) (BL 32 eq_refl) CB) as [B3 B4].
  assert (F2 : Forall2 is_text (map sp_point texts) texts).
  { clear - SC BL. induction SC as [|p ps P F IH]; constructor; [|exact IH]. unfold is_text, spaced_ok, sp_point. cbn [fst snd]. split; [split; [exact (BL 10 eq_refl)|exact (points_word p P)]|]. split; [exact P|exact (points_meaning p P)]. }
  eapply (short_fails _ [10] _ ([10], code_word (l_first l)) ([32], code_word (l_last l)) [32] (map sp_point texts) [10] texts); try reflexivity; try assumption; try (apply BL; reflexivity); try (apply WH; reflexivity).
  - constructor; [split; assumption|constructor].
  - cbn [p_n]. lia.
  - rewrite map_length, A4, B4. pose proof CA as [_ NA]. change (2 ^ 32) with 4294967296. lia.
Qed.

(** ** Statements *)
Lemma ranges_read cs b parts news : Forall both_codes cs -> blank b -> Forall2 (part_means range_means) parts news -> Forall part_one parts ->
  exists m l, parse_cmap (cmap_text cs b parts) = Ok (m, l) /\ forall c p, code_points m c = Some p <-> exists k, c_num k = c_num c /\ stands_for (concat news) k p.
Proof.
  intros C B F O. destruct (cmap_reads cs b parts news C B (parts_do parts news F O)) as (m & E & R). exists m. eexists. split; [exact E|]. intros c p. exact (look_iff m _ c p (reach_inv m _ R)).
Qed.
Lemma stands_map (f : Z -> code * list Z) : (forall i j, c_num (fst (f i)) = c_num (fst (f j)) -> i = j) -> forall n i j, i <= j < i + Z.of_nat n -> stands_for (map f (upto i n)) (fst (f j)) (snd (f j)).
Proof.
  intros INJ. induction n as [|n IH]; intros i j L; [lia|]. cbn [upto map]. destruct (Z.eq_dec i j) as [->|NE].
  - exists [], (map f (upto (j + 1) n)). split; [destruct (f j); reflexivity|]. intros q I E. apply List.in_map_iff in I as (x & <- & I). apply INJ in E. subst x. assert (U : forall n i x, In x (upto i n) -> i <= x).
    { clear. induction n as [|n IH]; intros i x; cbn [upto]; [intros []|]. intros [->|I]; [lia|]. specialize (IH _ _ I). lia. }
    specialize (U _ _ _ I). lia.
  - destruct (IH (i + 1) j ltac:(lia)) as (a & z & E & U). exists (f i :: a), z. rewrite E. split; [reflexivity|exact U].
Qed.
Lemma range_wrong cs b p r x q i : Forall both_codes cs -> blank b -> white (p_b1 p) -> white (p_b2 p) -> white (p_b3 p) -> 0 <= p_n p < 2 ^ 63 -> p_body p = BRanges [r] -> r_dest r = DOne x -> range_codes r -> is_text x q -> (2 <= length q)%nat ->
  last q 0 + (c_num (word_code (r_hi r)) - c_num (word_code (r_lo r))) <= 1114111 -> 0 <= i <= c_num (word_code (r_hi r)) - c_num (word_code (r_lo r)) ->
  exists m l, parse_cmap (cmap_text cs b [p]) = Ok (m, l) /\ code_points m (mk_code (c_num (word_code (r_lo r)) + i) (c_size (word_code (r_lo r)))) = Some (q ++ [last q 0 + i]).
Proof.
  intros C B W1 W2 W3 N EB ED RC T L LB I. assert (D : range_does r (impl_pairs (word_code (r_lo r)) (word_code (r_hi r)) q)).
  { split; [exact RC|]. rewrite ED. exists q. split; [exact T|]. split; [destruct q; [cbn in L; lia|discriminate]|]. auto. }
  assert (F : Forall2 (part_means range_does) [p] [impl_pairs (word_code (r_lo r)) (word_code (r_hi r)) q]).
  { constructor; [|constructor]. repeat (split; [assumption|]). rewrite EB. exists [impl_pairs (word_code (r_lo r)) (word_code (r_hi r)) q]. split; [constructor; [exact D|constructor]|]. cbn [concat]. rewrite app_nil_r. reflexivity. }
  destruct (cmap_reads cs b [p] _ C B F) as (m & E & R). exists m. eexists. split; [exact E|]. cbn [concat] in R. rewrite app_nil_r in R. apply (look_stands m _ _ _ (reach_inv m _ R)). unfold impl_pairs.
  assert (E1 : (length q =? 1)%nat = false) by (apply Nat.eqb_neq; lia). rewrite E1.
  apply (stands_map (fun i => (mk_code (c_num (word_code (r_lo r)) + i) (c_size (word_code (r_lo r))), q ++ [last q 0 + i]))); [intros a z; cbn [fst c_num]; lia|lia].
Qed.
Lemma sizes_read cs b parts news : Forall both_codes cs -> blank b -> Forall2 (part_means range_means) parts news -> Forall part_one parts -> text_codes cs parts <> [] ->
  exists m l, parse_cmap (cmap_text cs b parts) = Ok (m, l) /\ (forall c, In c (text_codes cs parts) -> cl_min l <= c_size c <= cl_max l) /\
  (exists c, In c (text_codes cs parts) /\ c_size c = cl_min l) /\ exists c, In c (text_codes cs parts) /\ c_size c = cl_max l.
Proof.
  intros C B F O NE. pose proof (parts_do parts news F O) as FD. destruct (cmap_reads cs b parts news C B FD) as (m & E & _). fold (text_codes cs parts) in E. exists m. eexists. split; [exact E|].
  destruct (notes_min (text_codes cs parts) new_limits) as (N1 & N2 & N3 & N4 & N5 & N6). cbn [new_limits cl_min cl_max] in N1, N3, N4, N6.
  assert (SZ : forall c, In c (text_codes cs parts) -> 1 <= c_size c <= 4).
  { assert (CW : forall x, is_code x -> 1 <= c_size (word_code x) <= 4) by (intros x X; exact (proj2 (word_bound x X))).
    intros c I. apply in_app_or in I as [I|I]; apply in_flat_map in I as (x & Ix & I).
    - rewrite Forall_forall in C. destruct (C x Ix) as [A D]. destruct I as [<-|[<-|[]]]; apply CW; assumption.
    - assert (P : exists new, part_means range_does x new).
      { clear - FD Ix. induction FD as [|y new parts news Y F IH]; [destruct Ix|]. destruct Ix as [->|Ix]; [eauto|exact (IH Ix)]. }
      destruct P as (new & _ & _ & _ & _ & P). unfold part_codes in I. destruct (p_body x) as [xs|rs]; apply in_flat_map in I as (y & Iy & I).
      + assert (Y : exists q, char_means y q).
        { clear - P Iy. induction P as [|z new parts news Z F IH]; [destruct Iy|]. destruct Iy as [->|Iy]; [eauto|exact (IH Iy)]. }
        destruct Y as (q & Y & _). destruct I as [<-|[]]. apply CW. exact Y.
      + destruct P as (pss & P & _). assert (Y : exists q, range_does y q).
        { clear - P Iy. induction P as [|z new parts news Z F IH]; [destruct Iy|]. destruct Iy as [->|Iy]; [eauto|exact (IH Iy)]. }
        destruct Y as (q & (YL & YH & _) & _). destruct I as [<-|[<-|[]]]; apply CW; assumption. }
  split; [intros c I; split; [exact (N2 c I)|exact (N5 c I)]|]. destruct (text_codes cs parts) as [|c0 rest] eqn:ET; [contradiction|]. split.
  - destruct N3 as [N3|(c & Ic & N3)]; [|exists c; auto]. pose proof (N2 c0 (or_introl eq_refl)). pose proof (SZ c0 (or_introl eq_refl)). lia.
  - destruct N6 as [N6|(c & Ic & N6)]; [|exists c; auto]. pose proof (N5 c0 (or_introl eq_refl)). pose proof (SZ c0 (or_introl eq_refl)). lia.
Qed.
