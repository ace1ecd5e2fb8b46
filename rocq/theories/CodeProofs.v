(** Proofs for maps between codes and texts. *)
From Coq Require Import Lia Permutation Sorted.
From Verif Require Import Base CodeModel CodeSpec.
Local Open Scope Z_scope.

(** ** The tree *)
Lemma find_update t cp f cp' : find_node (update_node t cp f) cp' =
  if cp' =? cp then Some (match find_node t cp with Some (c, l) => f c l | None => f no_code Nil end) else find_node t cp'.
Proof.
  induction t as [|x c l IHl a IHa b IHb]; cbn [update_node find_node].
  - destruct (f no_code Nil) as [c l]. cbn [find_node]. rewrite (Z.eqb_sym cp cp'). destruct (Z.eqb_spec cp' cp); [reflexivity|]. destruct (cp' <? cp); reflexivity.
  - destruct (Z.eqb_spec x cp) as [->|N].
    + destruct (f c l) as [c1 l1]. cbn [find_node]. rewrite (Z.eqb_sym cp cp'). destruct (Z.eqb_spec cp' cp); reflexivity.
    + destruct (Z.ltb_spec cp x); cbn [find_node].
      * rewrite IHa. destruct (Z.eqb_spec cp' cp) as [E'|N'].
        -- rewrite E'. rewrite (proj2 (Z.eqb_neq x cp)) by congruence. rewrite (proj2 (Z.ltb_lt cp x)) by lia. reflexivity.
        -- reflexivity.
      * rewrite IHb. destruct (Z.eqb_spec cp' cp) as [E'|N'].
        -- rewrite E'. rewrite (proj2 (Z.eqb_neq x cp)) by congruence. rewrite (proj2 (Z.ltb_ge cp x)) by lia. reflexivity.
        -- reflexivity.
Qed.
Lemma find_all_cons2 t cp cp2 r : find_all t (cp :: cp2 :: r) = match find_node t cp with None => None | Some (_, l) => find_all l (cp2 :: r) end.
Proof. reflexivity. Qed.
Lemma find_all_nil_tree q : find_all Nil q = None.
Proof. destruct q as [|a [|b q]]; reflexivity. Qed.
Lemma list_eq_dec_z (a b : list Z) : {a = b} + {a <> b}.
Proof. exact (list_eq_dec Z.eq_dec a b). Qed.
Lemma find_all_add cd : c_size cd <> 0 -> forall p t q, p <> [] -> find_all (add_path t p cd) q = if list_eq_dec_z q p then Some cd else find_all t q.
Proof.
  intros S0. induction p as [|cp p IH]; intros t q NE; [contradiction|]. destruct p as [|cp2 p].
  - cbn [add_path]. destruct q as [|a [|b q]].
    + destruct (list_eq_dec_z [] [cp]); [discriminate|reflexivity].
    + cbn [find_all]. rewrite find_update. destruct (Z.eqb_spec a cp) as [->|N].
      * destruct (list_eq_dec_z [cp] [cp]); [|congruence]. destruct (find_node t cp) as [[c l]|]; rewrite (proj2 (Z.eqb_neq _ _)) by exact S0; reflexivity.
      * destruct (list_eq_dec_z [a] [cp]); [congruence|reflexivity].
    + rewrite !find_all_cons2, find_update. destruct (list_eq_dec_z (a :: b :: q) [cp]); [discriminate|]. destruct (Z.eqb_spec a cp) as [->|N]; [|reflexivity].
      destruct (find_node t cp) as [[c l]|]; [reflexivity|]. apply find_all_nil_tree.
  - change (add_path t (cp :: cp2 :: p) cd) with (update_node t cp (fun c l => (c, add_path l (cp2 :: p) cd))). destruct q as [|a [|b q]].
    + destruct (list_eq_dec_z [] (cp :: cp2 :: p)); [discriminate|reflexivity].
    + destruct (list_eq_dec_z [a] (cp :: cp2 :: p)); [discriminate|]. cbn [find_all]. rewrite find_update. destruct (Z.eqb_spec a cp) as [->|N]; [|reflexivity].
      destruct (find_node t cp) as [[c l]|]; reflexivity.
    + rewrite !find_all_cons2, find_update. destruct (Z.eqb_spec a cp) as [->|N].
      * destruct (list_eq_dec_z (cp :: b :: q) (cp :: cp2 :: p)) as [E|E].
        -- injection E as -> ->. destruct (find_node t cp) as [[c l]|]; rewrite IH by discriminate; (destruct (list_eq_dec_z (cp2 :: p) (cp2 :: p)); [reflexivity|congruence]).
        -- destruct (find_node t cp) as [[c l]|]; rewrite IH by discriminate; (destruct (list_eq_dec_z (b :: q) (cp2 :: p)) as [E2|E2]; [congruence|]); [reflexivity|apply find_all_nil_tree].
      * destruct (list_eq_dec_z (a :: b :: q) (cp :: cp2 :: p)); [congruence|reflexivity].
Qed.
Definition good (m : unit_map) : Prop := forall c p, In (c, p) m -> c_size c <> 0 /\ p <> [].
Lemma find_all_build pairs : forall t, good pairs ->
  forall q, match find_all (fold_left (fun t p => add_path t (snd p) (fst p)) pairs t) q with
            | Some c => In (c, q) pairs \/ (find_all t q = Some c /\ forall c', ~ In (c', q) pairs)
            | None => find_all t q = None /\ forall c', ~ In (c', q) pairs end.
Proof.
  induction pairs as [|[c p] pairs IH]; intros t G q; cbn [fold_left fst snd].
  - destruct (find_all t q); [right|]; auto.
  - assert (G' : good pairs) by (intros c' p' I; apply (G c' p'); right; exact I). destruct (G c p (or_introl eq_refl)) as [S0 P0].
    specialize (IH (add_path t p c) G' q). rewrite (find_all_add c S0 p t q P0) in IH. destruct (find_all _ q) as [d|].
    + destruct IH as [I|[E N]]; [left; right; exact I|]. destruct (list_eq_dec_z q p) as [->|NE].
      * left. left. congruence.
      * right. split; [exact E|]. intros c' [I|I]; [congruence|exact (N c' I)].
    + destruct IH as [E N]. destruct (list_eq_dec_z q p) as [->|NE]; [discriminate|]. split; [exact E|]. intros c' [I|I]; [congruence|exact (N c' I)].
Qed.
Lemma build_spec pairs q : good pairs -> match find_all (build pairs) q with Some c => In (c, q) pairs | None => forall c, ~ In (c, q) pairs end.
Proof.
  intros G. pose proof (find_all_build pairs Nil G q) as H. unfold build. destruct (find_all _ q).
  - destruct H as [H|[H _]]; [exact H|]. rewrite find_all_nil_tree in H. discriminate.
  - exact (proj2 H).
Qed.
Lemma find_next_spec text : forall t,
  match find_next t text with
  | Some (c, rest) => exists p, p <> [] /\ text = p ++ rest /\ find_all t p = Some c /\ forall p' rest' c', text = p' ++ rest' -> find_all t p' = Some c' -> (length p' <= length p)%nat
  | None => forall p rest, text = p ++ rest -> find_all t p = None
  end.
Proof.
  induction text as [|cp rest IH]; intros t; cbn [find_next].
  - intros p rest E. symmetry in E. apply app_eq_nil in E as [-> _]. reflexivity.
  - destruct (find_node t cp) as [[c lig]|] eqn:F.
    + assert (SINGLE : find_all t [cp] = if c_size c =? 0 then None else Some c) by (cbn [find_all]; rewrite F; reflexivity).
      assert (LONG : forall b p, find_all t (cp :: b :: p) = find_all lig (b :: p)) by (intros b p; rewrite find_all_cons2, F; reflexivity).
      destruct rest as [|b rest].
      * destruct (Z.eqb_spec (c_size c) 0).
        -- intros [|x p] r E; [reflexivity|]. cbn in E. injection E as <- E. symmetry in E. apply app_eq_nil in E as [-> _]. exact SINGLE.
        -- exists [cp]. split; [discriminate|]. split; [reflexivity|]. split; [exact SINGLE|]. intros [|x p'] r' c' E _; [cbn; lia|]. cbn in E. injection E as _ E. symmetry in E. apply app_eq_nil in E as [-> _]. cbn. lia.
      * specialize (IH lig). destruct (find_next lig (b :: rest)) as [[c2 r2]|].
        -- destruct IH as (p & NE & E & FA & MAX). exists (cp :: p). split; [discriminate|]. split; [cbn; rewrite E; reflexivity|]. split.
           ++ destruct p as [|x p]; [contradiction|]. cbn in E. injection E as -> E. rewrite LONG. exact FA.
           ++ intros [|x p'] r' c' E' FA'; [cbn; lia|]. cbn in E'. injection E' as <- E'. destruct p' as [|y p']; [cbn; lia|].
              assert (b = y) by (cbn in E'; congruence). subst y. rewrite LONG in FA'. specialize (MAX (b :: p') r' c' E' FA'). cbn in *. lia.
        -- assert (NONE : forall p r, b :: rest = p ++ r -> p <> [] -> find_all t (cp :: p) = None).
           { intros [|y p] r E NE; [contradiction|]. assert (b = y) by (cbn in E; congruence). subst y. rewrite LONG. exact (IH (b :: p) r E). }
           destruct (Z.eqb_spec (c_size c) 0).
           ++ intros [|x p] r E; [reflexivity|]. cbn in E. injection E as <- E. destruct p as [|y p]; [exact SINGLE|]. apply (NONE _ r E). discriminate.
           ++ exists [cp]. split; [discriminate|]. split; [reflexivity|]. split; [exact SINGLE|].
              intros [|x p'] r' c' E' FA'; [cbn; lia|]. cbn in E'. injection E' as <- E'. destruct p' as [|y p']; [cbn; lia|]. rewrite (NONE _ r' E') in FA' by discriminate. discriminate.
    + intros [|x p] r E; [reflexivity|]. cbn in E. injection E as <- E. destruct p; cbn [find_all]; rewrite F; reflexivity.
Qed.

(** ** The sorted map *)
Definition lower (n : Z) (m : unit_map) : Prop := forall c p, In (c, p) m -> n < c_num c.
Inductive ordered : unit_map -> Prop :=
| O_nil : ordered []
| O_cons c p m : lower (c_num c) m -> ordered m -> ordered ((c, p) :: m).
Lemma in_put m c v x : In x (put_code m c v) -> x = (c, v) \/ In x m \/ exists k, c_num k = c_num c /\ x = (k, v) /\ exists w, In (k, w) m.
Proof.
  induction m as [|[k w] m IH]; cbn [put_code]; [intros [<-|[]]; left; reflexivity|]. destruct (Z.ltb_spec (c_num c) (c_num k)).
  - intros [<-|I]; [left; reflexivity|right; left; exact I].
  - destruct (Z.ltb_spec (c_num k) (c_num c)).
    + intros [<-|I]; [right; left; left; reflexivity|]. destruct (IH I) as [E|[E|(k' & E1 & E2 & u & E3)]]; [left; exact E|right; left; right; exact E|].
      right. right. exists k'. split; [exact E1|]. split; [exact E2|]. exists u. right. exact E3.
    + intros [<-|I]; [|right; left; right; exact I]. right. right. exists k. split; [lia|]. split; [reflexivity|]. exists w. left. reflexivity.
Qed.
Lemma ordered_put m c v : ordered m -> ordered (put_code m c v).
Proof.
  induction 1 as [|k w m L O IH]; cbn [put_code]; [constructor; [intros ? ? []|constructor]|]. destruct (Z.ltb_spec (c_num c) (c_num k)).
  - constructor; [|constructor; assumption]. intros d p [I|I]; [injection I as <- <-; assumption|]. specialize (L d p I). lia.
  - destruct (Z.ltb_spec (c_num k) (c_num c)).
    + constructor; [|exact IH]. intros d p I. apply in_put in I as [E|[I|(k' & E & E2 & u & I)]].
      * injection E as -> ->. assumption.
      * exact (L d p I).
      * injection E2 as -> ->. exact (L _ _ I).
    + constructor; assumption.
Qed.
Lemma find_lower m c : lower (c_num c) m -> find_code m c = None.
Proof.
  induction m as [|[k w] m IH]; intros L; cbn [find_code]; [reflexivity|]. pose proof (L k w (or_introl eq_refl)). rewrite (proj2 (Z.eqb_neq _ _)) by lia. apply IH. intros d p I. apply (L d p). right. exact I.
Qed.
Lemma find_num m c c' : c_num c = c_num c' -> find_code m c = find_code m c'.
Proof. intros E. induction m as [|[k w] m IH]; cbn [find_code]; [reflexivity|]. rewrite E, IH. reflexivity. Qed.
Lemma find_put m c v c' : ordered m -> find_code (put_code m c v) c' =
  if c_num c' =? c_num c then Some (match find_code m c with Some (k, _) => k | None => c end, v) else find_code m c'.
Proof.
  induction 1 as [|k w m L O IH]; cbn [put_code find_code].
  - rewrite Z.eqb_sym. reflexivity.
  - destruct (Z.ltb_spec (c_num c) (c_num k)).
    + cbn [find_code]. rewrite (Z.eqb_sym (c_num c) (c_num c')). rewrite (proj2 (Z.eqb_neq (c_num k) (c_num c))) by lia. rewrite (find_lower m c) by (intros d p I; specialize (L d p I); lia). destruct (Z.eqb_spec (c_num c') (c_num c)); reflexivity.
    + destruct (Z.ltb_spec (c_num k) (c_num c)).
      * cbn [find_code]. rewrite (proj2 (Z.eqb_neq (c_num k) (c_num c))) by lia. rewrite IH. destruct (Z.eqb_spec (c_num k) (c_num c')).
        -- rewrite (proj2 (Z.eqb_neq (c_num c') (c_num c))) by lia. reflexivity.
        -- reflexivity.
      * assert (c_num k = c_num c) as E by lia. cbn [find_code]. rewrite E, Z.eqb_refl. rewrite (Z.eqb_sym (c_num c) (c_num c')). destruct (Z.eqb_spec (c_num c') (c_num c)); reflexivity.
Qed.
Lemma find_in m c k p : find_code m c = Some (k, p) -> In (k, p) m /\ c_num k = c_num c.
Proof.
  induction m as [|[d w] m IH]; cbn [find_code]; [discriminate|]. destruct (Z.eqb_spec (c_num d) (c_num c)).
  - intros E. injection E as <- <-. split; [left; reflexivity|assumption].
  - intros E. destruct (IH E). split; [right; assumption|assumption].
Qed.
Lemma in_find m c p : ordered m -> In (c, p) m -> find_code m c = Some (c, p).
Proof.
  induction 1 as [|k w m L O IH]; [intros []|]. intros [E|I]; cbn [find_code].
  - injection E as -> ->. rewrite Z.eqb_refl. reflexivity.
  - pose proof (L c p I). rewrite (proj2 (Z.eqb_neq _ _)) by lia. exact (IH I).
Qed.

(** ** Pushes *)
Lemma stands_push ps c p c' p' : stands_for (ps ++ [(c, p)]) c' p' <-> (c' = c /\ p' = p) \/ (c_num c' <> c_num c /\ stands_for ps c' p').
Proof.
  split.
  - intros (a & b & E & N). destruct (exists_last (l := (c', p') :: b)) as (b1 & x & E1); [discriminate|].
    destruct b1 as [|y b1].
    + cbn in E1. injection E1 as <- ->. apply app_inj_tail in E as [-> E]. left. split; congruence.
    + cbn in E1. injection E1 as <- E1. subst b. change (a ++ (c', p') :: b1 ++ [x]) with (a ++ ((c', p') :: b1) ++ [x]) in E. rewrite app_assoc in E. apply app_inj_tail in E as [-> <-].
      right. split; [|exists a, b1; split; [reflexivity|intros q I; apply N; apply in_or_app; left; exact I]]. intros E. apply (N (c, p)); [apply in_or_app; right; left; reflexivity|symmetry; exact E].
  - intros [[-> ->]|[NE (a & b & -> & N)]].
    + exists ps, []. split; [reflexivity|intros q []].
    + exists a, (b ++ [(c, p)]). split; [rewrite <- app_assoc; reflexivity|]. intros q I. apply in_app_or in I as [I|[<-|[]]]; [exact (N q I)|cbn; congruence].
Qed.
Lemma stands_in ps c p : stands_for ps c p -> In (c, p) ps.
Proof. intros (a & b & -> & _). apply in_or_app. right. left. reflexivity. Qed.
Lemma stands_exists ps c : (exists p, In p ps /\ c_num (fst p) = c_num c) -> exists k p, c_num k = c_num c /\ stands_for ps k p.
Proof.
  induction ps as [|[d w] ps IH] using rev_ind; intros (p & I & E); [destruct I|]. destruct (Z.eq_dec (c_num d) (c_num c)) as [E2|N].
  - exists d, w. split; [exact E2|]. apply stands_push. left. auto.
  - apply in_app_or in I as [I|[<-|[]]]; [|contradiction]. destruct IH as (k & q & E3 & ST); [exists p; auto|]. exists k, q. split; [exact E3|]. apply stands_push. right. split; [congruence|exact ST].
Qed.

Definition lim_ok (l : limits) (ps : list (code * list Z)) : Prop :=
  (forall q, In q ps -> l_min l <= c_size (fst q) <= l_max l) /\ (ps <> [] -> (exists q, In q ps /\ c_size (fst q) = l_min l) /\ exists q, In q ps /\ c_size (fst q) = l_max l) /\ (ps = [] -> l = default_limits).
Definition inv (s : char_map) (ps : list (code * list Z)) : Prop :=
  ordered (m_map s) /\ good (m_map s) /\
  (forall c, match find_code (m_map s) c with
             | Some (k, p) => exists k', c_num k' = c_num c /\ stands_for ps k' p /\ exists w, In (k, w) ps
             | None => forall p, ~ stands_for ps c p end) /\
  (m_dirty s = false -> exists pairs, Permutation (m_map s) pairs /\ m_head s = build pairs) /\
  (forall q, In q ps -> c_size (fst q) <> 0 /\ snd q <> []).
Lemma inv_new : inv new_map [].
Proof.
  repeat split; cbn; try (intros; contradiction); try constructor.
  - intros c p (a & b & E & _). destruct a; discriminate.
  - intros _. exists []. split; [constructor|reflexivity].
Qed.
Lemma inv_push s ps c p s' : inv s ps -> push s c p = Ok s' -> inv s' (ps ++ [(c, p)]).
Proof.
  intros (O & G & F & D & W) E. unfold push in E. destruct p as [|x p]; [discriminate|]. destruct (Z.eqb_spec (c_size c) 0) as [|NS]; [discriminate|]. assert (s' = mk_map (m_limits s') (put_code (m_map s) c (x :: p)) true (m_head s)) as E' by (injection E as <-; reflexivity). clear E. rewrite E'. clear E'.
  set (P := x :: p) in *. assert (NP : P <> []) by discriminate. clearbody P. unfold inv. cbn [m_map m_dirty m_head]. split; [apply ordered_put; exact O|]. split; [|split; [|split]].
  - intros c' p' I. apply in_put in I as [E|[I|(k & E1 & E2 & w & I)]]; [injection E as -> ->; auto|exact (G c' p' I)|]. injection E2 as -> ->. split; [exact (proj1 (G k w I))|exact NP].
  - intros c'. rewrite (find_put _ _ _ _ O). destruct (Z.eqb_spec (c_num c') (c_num c)) as [E|N].
    + exists c. split; [congruence|]. split; [apply stands_push; left; auto|]. pose proof (F c) as Fc. destruct (find_code (m_map s) c) as [[k q]|].
      * destruct Fc as (k' & _ & _ & w & I). exists w. apply in_or_app. left. exact I.
      * exists P. apply in_or_app. right. left. reflexivity.
    + pose proof (F c') as Fc. destruct (find_code (m_map s) c') as [[k q]|].
      * destruct Fc as (k' & E1 & E2 & w & I). exists k'. split; [exact E1|]. split; [apply stands_push; right; split; [congruence|exact E2]|]. exists w. apply in_or_app. left. exact I.
      * intros q ST. apply stands_push in ST as [[-> _]|[_ ST]]; [congruence|exact (Fc q ST)].
  - discriminate.
  - intros q I. apply in_app_or in I as [I|[<-|[]]]; [exact (W q I)|cbn; auto].
Qed.
Lemma inv_revise s ps sh : is_shuffle sh -> inv s ps -> inv (revise sh s) ps /\ m_dirty (revise sh s) = false /\ m_map (revise sh s) = m_map s /\ m_limits (revise sh s) = m_limits s.
Proof.
  intros SH I. unfold revise. destruct (m_dirty s) eqn:E; [destruct I as (O & G & F & D & W)|].
  - split; [|auto]. unfold inv. cbn [m_map m_dirty m_head]. split; [exact O|]. split; [exact G|]. split; [exact F|]. split; [|exact W]. intros _. exists (sh (m_map s)). split; [apply SH|reflexivity].
  - split; [exact I|auto].
Qed.
Lemma reach_inv s ps : reach s ps -> inv s ps.
Proof.
  induction 1 as [|s ps c p s' R IH P|s ps sh text R IH SH|s ps sh text R IH SH|s ps sh cp R IH SH].
  - exact inv_new.
  - exact (inv_push s ps c p s' IH P).
  - exact (proj1 (inv_revise s ps sh SH IH)).
  - exact (proj1 (inv_revise s ps sh SH IH)).
  - exact (proj1 (inv_revise s ps sh SH IH)).
Qed.
(** With one size for each number the map has the codes pushed *)
Lemma in_map_iff s ps c p : inv s ps -> consistent ps -> (In (c, p) (m_map s) <-> stands_for ps c p).
Proof.
  intros (O & G & F & D & W) C. split.
  - intros I. pose proof (F c) as Fc. rewrite (in_find _ _ _ O I) in Fc. destruct Fc as (k & E & ST & w & IW).
    pose proof (C (k, p) (c, w) (stands_in _ _ _ ST) IW E) as ES. destruct k, c. cbn in *. subst. exact ST.
  - intros ST. pose proof (F c) as Fc. destruct (find_code (m_map s) c) as [[k q]|] eqn:FC; [|exfalso; exact (Fc p ST)].
    destruct (find_in _ _ _ _ FC) as [I E]. destruct Fc as (k' & E1 & ST1 & w & IW).
    assert (U : forall ps a b p q, c_num a = c_num b -> stands_for ps a p -> stands_for ps b q -> a = b /\ p = q).
    { clear. intros ps. induction ps as [|[d w] ps IH] using rev_ind; intros a b p q E A B.
      - destruct A as (x & y & E1 & _). destruct x; discriminate.
      - apply stands_push in A as [[-> ->]|[NA A]], B as [[-> ->]|[NB B]]; try congruence; auto. }
    destruct (U ps k' c q p E1 ST1 ST) as [-> ->]. pose proof (C (k, w) (c, p) IW (stands_in _ _ _ ST) E) as ES. destruct k, c. cbn in *. subst. exact I.
Qed.
Lemma head_spec s ps : inv s ps -> m_dirty s = false -> consistent ps -> forall q, match find_all (m_head s) q with Some c => stands_for ps c q | None => forall c, ~ stands_for ps c q end.
Proof.
  intros I D C q. destruct (proj1 (proj2 (proj2 (proj2 I))) D) as (pairs & P & ->).
  assert (G : good pairs) by (intros c p J; apply (proj1 (proj2 I)); exact (Permutation_in _ (Permutation_sym P) J)).
  pose proof (build_spec pairs q G) as H. destruct (find_all (build pairs) q).
  - apply (in_map_iff s ps _ _ I C). exact (Permutation_in _ (Permutation_sym P) H).
  - intros c ST. apply (in_map_iff s ps c q I C) in ST. exact (H c (Permutation_in _ P ST)).
Qed.
