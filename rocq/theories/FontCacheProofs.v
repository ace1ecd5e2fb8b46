From Coq Require Import String Lia.
From Verif Require Import Base FontCacheModel FontCacheSpec.
Local Open Scope Z_scope.

(** ** The table *)
Lemma some_same {A} (a b : A) : Some a = Some b -> a = b.
Proof. congruence. Qed.
Lemma lookup_put e d v m : finds e -> lookup e d (put e d v m) = Some v.
Proof.
  intros F. assert (H : hit e d d = true). { unfold hit, equal_elem. rewrite F, !Z.eqb_refl, beq_refl. reflexivity. }
  induction m as [|[k l] m IH]; cbn [put lookup]; [rewrite H; reflexivity|]. destruct (hit e d k) eqn:K; cbn [lookup]; rewrite K; [reflexivity|exact IH].
Qed.
Lemma put_put e d v w m : put e d v (put e d w m) = put e d v m \/ finds e -> finds e -> put e d v (put e d w m) = put e d v m.
Proof.
  intros _ F. assert (H : hit e d d = true). { unfold hit, equal_elem. rewrite F, !Z.eqb_refl, beq_refl. reflexivity. }
  induction m as [|[k l] m IH]; cbn [put]; [rewrite H; reflexivity|]. destruct (hit e d k) eqn:K; cbn [put]; rewrite K; [reflexivity|rewrite IH; reflexivity].
Qed.
Lemma lookup_fresh e d q v m : lookup e q m = None -> lookup e q (put e d v m) = None \/ lookup e q (put e d v m) = Some v.
Proof.
  induction m as [|[k l] m IH]; cbn [put lookup].
  - intros _. destruct (hit e q d); auto.
  - destruct (hit e q k) eqn:Q; [discriminate|]. intros N. destruct (hit e d k); cbn [lookup]; rewrite Q; [left; exact N|apply IH; exact N].
Qed.
Lemma match_one exact name f x : match_font exact name [f] = Ok (Some x) -> x = f.
Proof.
  unfold match_font. destruct exact; cbn [find]; [destruct (beq (mt_name (fo_metrics f)) name)|]; congruence.
Qed.
Lemma owner_app n l x : owner n (l ++ [x]) = match owner n l with Some v => Some v | None => if fst x =? n then Some (snd x) else None end.
Proof. induction l as [|[k v] l IH]; cbn [app owner]; [destruct x as [k v]; reflexivity|]. destruct (k =? n); [reflexivity|exact IH]. Qed.

(** ** Asking twice *)
Lemma add_ok e d l f s r s' : add_imported e d l f s = (Ok r, s') -> r = Some f /\ s' = mk_cache (put e d (l ++ [f]) (imported s)) (owned s ++ [(fo_id f, (false, f))]) (prefix s) (next s).
Proof. unfold add_imported. destruct (owner (fo_id f) (owned s)); [discriminate|]. intros E. apply pair_equal_spec in E. destruct E as [E <-]. apply ok_inj in E. auto. Qed.
Lemma std_twice e std enc flags enc' flags' s f s' : finds e -> enc' = enc -> get_std e std enc flags s = (Ok (Some f), s') -> get_std e std enc' flags' s' = (Ok (Some f), s').
Proof.
  intros F -> G. unfold get_std in G. destruct (lookup e (mk_descr [] std enc 0) (imported s)) as [[|g l]|] eqn:L.
  - apply add_ok in G. destruct G as [G ->]. injection G as ->. unfold get_std. cbn [imported]. rewrite lookup_put by exact F. reflexivity.
  - apply pair_equal_spec in G. destruct G as [G <-]. unfold get_std. rewrite L. exact (f_equal (fun x => (x, s)) G).
  - apply add_ok in G. destruct G as [G ->]. injection G as ->. unfold get_std. cbn [imported]. rewrite lookup_put by exact F. reflexivity.
Qed.
(** What importing does: the font is there, or is made *)
Lemma import_cases e m enc flags matcher s f s' : finds e -> import_metrics e m enc flags matcher s = (Ok (Some f), s') ->
  let d := mk_descr (mt_base m) 0 enc (mt_style m) in
  (exists l, l <> [] /\ lookup e d (imported s) = Some l /\ matcher l = Ok (Some f) /\ s' = s) \/
  (f = mk_font (next s) m (new_name e m flags) 0 enc flags /\ (lookup e d (imported s) = None \/ lookup e d (imported s) = Some []) /\ imported s' = put e d [f] (imported s) /\ exists x, matcher [f] = Ok (Some x)).
Proof.
  intros F G d. unfold import_metrics in G. fold d in G.
  assert (H : lookup e d (imported s) = None \/ lookup e d (imported s) = Some [] -> (let s1 := mk_cache (put e d [] (imported s)) (owned s) (prefix s) (next s) in
    if mt_known m then let f := mk_font (next s) m (new_name e m flags) 0 enc flags in let s2 := mk_cache (imported s1) (owned s1) (prefix s1) (next s1 + 1) in
      match matcher [f] with Ok (Some _) => add_imported e d [] f s2 | r => (r, s2) end else (Err EUnsupportedFontFormat, s1)) = (Ok (Some f), s') ->
    f = mk_font (next s) m (new_name e m flags) 0 enc flags /\ imported s' = put e d [f] (imported s) /\ exists x, matcher [f] = Ok (Some x)).
  { clear G. cbv zeta. intros L G. destruct (mt_known m); [|discriminate]. cbn [imported owned prefix next] in G.
    destruct (matcher [mk_font (next s) m (new_name e m flags) 0 enc flags]) as [[x|]| | |] eqn:M; try discriminate.
    apply add_ok in G. destruct G as [G ->]. injection G as ->. split; [reflexivity|]. cbn [imported app]. rewrite put_put by auto. split; [reflexivity|]. exists x. exact M. }
  destruct (lookup e d (imported s)) as [[|g l]|] eqn:L.
  - right. destruct (H (or_intror eq_refl) G) as (A & B & C). repeat split; auto.
  - left. apply pair_equal_spec in G. destruct G as [G <-]. exists (g :: l). repeat split; auto. discriminate.
  - right. destruct (H (or_introl eq_refl) G) as (A & B & C). repeat split; auto.
Qed.
Lemma font_twice e name p enc flags flags' s f s' : finds e -> get_font e name p enc flags s = (Ok (Some f), s') -> get_font e name p enc flags' s' = (Ok (Some f), s').
Proof.
  intros F G. unfold get_font in *. destruct (match sp_auto p with Some alt => std14 e alt name | None => None end) as [std|]; [apply (std_twice e std enc flags enc flags' s f s' F eq_refl G)|].
  set (base := fst (extract e name)) in *. set (style := Z.lor (sp_style p) (snd (extract e name))) in *. destruct (lookup e (mk_descr base 0 enc style) (imported s)) as [l|] eqn:L.
  - apply pair_equal_spec in G. destruct G as [G <-]. rewrite L, G. reflexivity.
  - destruct (data e base style) as [m|]; [|discriminate]. destruct (import_cases _ _ _ _ _ _ _ _ F G) as [(l & NE & LD & MA & ->) | (FE & LD & IM & x & MA)].
    + rewrite L. unfold import_metrics. rewrite LD. destruct l as [|g l]; [destruct (NE eq_refl)|]. rewrite MA. reflexivity.
    + assert (x = f) as -> by (apply match_one in MA; exact MA).
      destruct (lookup_fresh e (mk_descr (mt_base m) 0 enc (mt_style m)) (mk_descr base 0 enc style) [f] (imported s) L) as [N | N]; rewrite IM, N; [|rewrite MA; reflexivity].
      unfold import_metrics. rewrite IM, lookup_put by exact F. rewrite MA. reflexivity.
Qed.

(** ** What is in the table *)
Section Holds.
  Variable e : env.
  Variable P : descr -> font -> Prop.
  Hypothesis compat : forall d k f, hit e d k = true -> P k f <-> P d f.
  Definition holds (m : list (descr * list font)) : Prop := Forall (fun x => Forall (P (fst x)) (snd x)) m.
  Lemma holds_lookup d m l : holds m -> lookup e d m = Some l -> Forall (P d) l.
  Proof.
    intros H. induction H as [|[k v] m K H IH]; cbn [lookup]; [discriminate|]. destruct (hit e d k) eqn:B; [|exact IH]. intros E. injection E as <-. cbn [fst snd] in K.
    apply (Forall_impl (P d)) in K; [exact K|]. intros f. apply (compat d k f B).
  Qed.
  Lemma holds_put d v m : holds m -> Forall (P d) v -> holds (put e d v m).
  Proof.
    intros H V. induction H as [|[k w] m K H IH]; cbn [put]; [constructor; [exact V|constructor]|]. destruct (hit e d k) eqn:B; constructor; try assumption.
    cbn [fst snd]. apply (Forall_impl (P k)) in V; [exact V|]. intros f. apply (compat d k f B).
  Qed.
  Hypothesis fresh : forall id m name enc flags, P (mk_descr (mt_base m) 0 enc (mt_style m)) (mk_font id m name 0 enc flags).
  Hypothesis fresh_std : forall id m name std enc flags, P (mk_descr [] std enc 0) (mk_font id m name std enc flags).
  Lemma add_holds d l f s : holds (imported s) -> Forall (P d) l -> P d f -> holds (imported (snd (add_imported e d l f s))).
  Proof.
    intros H L PF. unfold add_imported. destruct (owner (fo_id f) (owned s)); [exact H|]. cbn [snd imported]. apply holds_put; [exact H|]. apply Forall_app. auto.
  Qed.
  Lemma import_holds m enc flags matcher s : holds (imported s) -> holds (imported (snd (import_metrics e m enc flags matcher s))).
  Proof.
    intros H. unfold import_metrics. cbv zeta.
    assert (HP : holds (put e (mk_descr (mt_base m) 0 enc (mt_style m)) [] (imported s))) by (apply holds_put; [exact H|constructor]).
    destruct (lookup e _ (imported s)) as [[|g l]|]; [|exact H|]; (destruct (mt_known m); [|exact HP]); cbn [imported owned prefix next];
      (match goal with |- context [matcher ?q] => destruct (matcher q) as [[x|]| | |] end); try exact HP; (apply add_holds; [exact HP|constructor|apply fresh]).
  Qed.
  Lemma std_holds std enc flags s : holds (imported s) -> holds (imported (snd (get_std e std enc flags s))).
  Proof.
    intros H. unfold get_std. destruct (lookup e _ (imported s)) as [[|g l]|]; [|exact H|]; (apply add_holds; [exact H|constructor|apply fresh_std]).
  Qed.
  Lemma ask_holds q s : holds (imported s) -> holds (imported (snd (ask e q s))).
  Proof.
    intros H. destruct q; cbn [ask].
    - unfold get_font. destruct (match sp_auto p with Some alt => std14 e alt name | None => None end); [apply std_holds; exact H|]. destruct (lookup e _ (imported s)); [exact H|].
      destruct (data e _ _); [apply import_holds; exact H|exact H].
    - apply std_holds. exact H.
    - unfold get_face. destruct (lookup e _ (imported s)); [exact H|apply import_holds; exact H].
    - unfold add_font. apply add_holds; [exact H| |apply fresh]. destruct (lookup e _ (imported s)) as [l|] eqn:L; cbn [found]; [|constructor]. apply (holds_lookup _ _ _ H L).
    - unfold get_loaded. destruct (owner n (owned s)) as [[[|] g]|]; try exact H. destruct (made e n); exact H.
    - constructor.
    - exact H.
    - exact H.
  Qed.
  Lemma after_holds qs : forall s, holds (imported s) -> holds (imported (after e qs s)).
  Proof. induction qs as [|q qs IH]; intros s H; [exact H|]. cbn [after]. apply IH. apply ask_holds. exact H. Qed.
  Lemma std_result std enc flags s f s' : holds (imported s) -> get_std e std enc flags s = (Ok (Some f), s') -> P (mk_descr [] std enc 0) f.
  Proof.
    intros H G. unfold get_std in G. destruct (lookup e (mk_descr [] std enc 0) (imported s)) as [[|g l]|] eqn:L.
    - apply add_ok in G. destruct G as [G _]. injection G as ->. apply fresh_std.
    - apply pair_equal_spec in G. destruct G as [G _]. injection G as <-. apply (holds_lookup _ _ _ H) in L. inversion L. assumption.
    - apply add_ok in G. destruct G as [G _]. injection G as ->. apply fresh_std.
  Qed.
  Lemma match_in exact name l f : match_font exact name l = Ok (Some f) -> List.In f l.
  Proof.
    unfold match_font. destruct exact.
    - intros E. injection E as E. apply find_some in E. tauto.
    - destruct l as [|a [|b l]]; [discriminate| |]; intros E; apply ok_inj in E; apply some_same in E; subst f; [left; reflexivity|].
      match goal with |- context [find ?h ?q] => destruct (find h q) as [g|] eqn:G end; [exact (proj1 (find_some _ _ G))|left; reflexivity].
  Qed.
  Lemma font_result name p enc flags s f s' : finds e -> holds (imported s) -> get_font e name p enc flags s = (Ok (Some f), s') ->
    (exists alt std, sp_auto p = Some alt /\ std14 e alt name = Some std /\ P (mk_descr [] std enc 0) f) \/
    P (mk_descr (fst (extract e name)) 0 enc (Z.lor (sp_style p) (snd (extract e name)))) f \/
    (exists m, data e (fst (extract e name)) (Z.lor (sp_style p) (snd (extract e name))) = Some m /\ P (mk_descr (mt_base m) 0 enc (mt_style m)) f).
  Proof.
    intros F H G. unfold get_font in G. destruct (sp_auto p) as [alt|] eqn:A; [destruct (std14 e alt name) as [std|] eqn:S|].
    - left. exists alt, std. repeat split; auto. apply (std_result _ _ _ _ _ _ H G).
    - right. destruct (lookup e _ (imported s)) as [l|] eqn:L.
      + left. apply pair_equal_spec in G. destruct G as [G _]. apply match_in in G. apply (holds_lookup _ _ _ H) in L. rewrite Forall_forall in L. apply L. exact G.
      + right. destruct (data e _ _) as [m|]; [|discriminate]. exists m. split; [reflexivity|]. destruct (import_cases _ _ _ _ _ _ _ _ F G) as [(l & NE & LD & MA & _) | (FE & _)].
        * apply match_in in MA. apply (holds_lookup _ _ _ H) in LD. rewrite Forall_forall in LD. apply LD. exact MA.
        * rewrite FE. apply fresh.
    - right. destruct (lookup e _ (imported s)) as [l|] eqn:L.
      + left. apply pair_equal_spec in G. destruct G as [G _]. apply match_in in G. apply (holds_lookup _ _ _ H) in L. rewrite Forall_forall in L. apply L. exact G.
      + right. destruct (data e _ _) as [m|]; [|discriminate]. exists m. split; [reflexivity|]. destruct (import_cases _ _ _ _ _ _ _ _ F G) as [(l & NE & LD & MA & _) | (FE & _)].
        * apply match_in in MA. apply (holds_lookup _ _ _ H) in LD. rewrite Forall_forall in LD. apply LD. exact MA.
        * rewrite FE. apply fresh.
  Qed.
End Holds.

(** ** No undefined behaviour *)
Definition sound (n0 : Z) (s : cache) : Prop := Forall (fun x => snd x <> []) (imported s) /\ (forall n v, owner n (owned s) = Some v -> n < next s) /\ n0 <= next s.
Lemma put_full e d v m : v <> [] -> Forall (fun x : descr * list font => snd x <> []) m -> Forall (fun x => snd x <> []) (put e d v m).
Proof. intros V H. induction H as [|[k l] m K H IH]; cbn [put]; [repeat constructor; exact V|]. destruct (hit e d k); constructor; auto. Qed.
Lemma lookup_full e d m l : Forall (fun x : descr * list font => snd x <> []) m -> lookup e d m = Some l -> l <> [].
Proof. intros H. induction H as [|[k v] m K H IH]; cbn [lookup]; [discriminate|]. destruct (hit e d k); [|exact IH]. intros E. injection E as <-. exact K. Qed.
Lemma owner_none n0 s : sound n0 s -> owner (next s) (owned s) = None.
Proof. intros (_ & O & _). destruct (owner (next s) (owned s)) as [v|] eqn:E; [|reflexivity]. apply O in E. lia. Qed.
Lemma add_sound n0 e d l f imp ow pr nx : finds e -> sound n0 (mk_cache imp ow pr nx) -> forall imp', Forall (fun x => snd x <> []) (put e d (l ++ [f]) imp') -> fo_id f = nx ->
  exists s', add_imported e d l f (mk_cache imp' ow pr (nx + 1)) = (Ok (Some f), s') /\ sound n0 s'.
Proof.
  intros F S imp' FU ID. unfold add_imported. cbn [owned imported prefix next]. pose proof (owner_none n0 _ S) as ON. cbn [next owned] in ON. rewrite ID, ON. eexists. split; [reflexivity|].
  destruct S as (_ & O & N). cbn [owned next] in O, N. repeat split; cbn [imported owned next]; [exact FU| |lia]. intros n v. rewrite owner_app. cbn [fst snd]. destruct (owner n ow) as [w|] eqn:E; [intros _; apply O in E; lia|].
  destruct (nx =? n) eqn:B; [intros _; apply Z.eqb_eq in B; lia|discriminate].
Qed.
Lemma import_sound n0 e m enc flags matcher s : finds e -> mt_known m = true -> (forall f l, exists x, matcher (f :: l) = Ok (Some x)) -> sound n0 s ->
  exists f s', import_metrics e m enc flags matcher s = (Ok (Some f), s') /\ sound n0 s'.
Proof.
  intros F K M S. unfold import_metrics. rewrite K. destruct s as [imp ow pr nx]. cbn [imported owned prefix next].
  assert (H : exists f s', match matcher [mk_font nx m (new_name e m flags) 0 enc flags] with
    | Ok (Some _) => add_imported e (mk_descr (mt_base m) 0 enc (mt_style m)) [] (mk_font nx m (new_name e m flags) 0 enc flags) (mk_cache (put e (mk_descr (mt_base m) 0 enc (mt_style m)) [] imp) ow pr (nx + 1))
    | r => (r, mk_cache (put e (mk_descr (mt_base m) 0 enc (mt_style m)) [] imp) ow pr (nx + 1)) end = (Ok (Some f), s') /\ sound n0 s').
  { destruct (M (mk_font nx m (new_name e m flags) 0 enc flags) []) as (x & ->).
    destruct (add_sound n0 e (mk_descr (mt_base m) 0 enc (mt_style m)) [] (mk_font nx m (new_name e m flags) 0 enc flags) imp ow pr nx F S (put e (mk_descr (mt_base m) 0 enc (mt_style m)) [] imp)) as (s' & A & B).
    - rewrite put_put by auto. apply put_full; [discriminate|]. apply S.
    - reflexivity.
    - eauto. }
  destruct (lookup e (mk_descr (mt_base m) 0 enc (mt_style m)) imp) as [[|g l]|]; try exact H.
  destruct (M g l) as (x & ->). exists x, (mk_cache imp ow pr nx). split; [reflexivity|exact S].
Qed.
Lemma match_some name f l : exists x, match_font false name (f :: l) = Ok (Some x).
Proof. unfold match_font. destruct l; eauto. Qed.
Lemma std_sound n0 e std enc flags s : finds e -> sound n0 s -> exists f s', get_std e std enc flags s = (Ok (Some f), s') /\ sound n0 s'.
Proof.
  intros F S. unfold get_std. destruct s as [imp ow pr nx]. cbn [imported owned prefix next].
  destruct (add_sound n0 e (mk_descr [] std enc 0) [] (mk_font nx (std_metrics e std) (new_name e (std_metrics e std) flags) std enc flags) imp ow pr nx F S imp) as (s' & A & B);
    [apply put_full; [discriminate|apply S]|reflexivity|].
  destruct (lookup e (mk_descr [] std enc 0) imp) as [[|g l]|]; eauto.
Qed.
Lemma ask_sound n0 e q s : finds e -> (forall b t m, data e b t = Some m -> mt_known m = true) -> (forall n f, made e n = Some f -> n < n0) -> plain q -> sound n0 s -> fst (ask e q s) <> UB /\ sound n0 (snd (ask e q s)).
Proof.
  intros F K M P S. destruct q; cbn [ask plain] in *.
  - unfold get_font. destruct (match sp_auto p with Some alt => std14 e alt name | None => None end) as [std|].
    + destruct (std_sound n0 e std enc flags s F S) as (f & s' & -> & S'). cbn [fst snd]. split; [discriminate|exact S'].
    + rewrite P. destruct (lookup e _ (imported s)) as [l|] eqn:L.
      * cbn [fst snd]. split; [|exact S]. apply lookup_full in L; [|apply S]. destruct l as [|g l]; [destruct (L eq_refl)|]. destruct (match_some name g l) as (x & ->). discriminate.
      * destruct (data e _ _) as [m|] eqn:D; [|cbn [fst snd]; split; [discriminate|exact S]].
        destruct (import_sound n0 e m enc flags (match_font false name) s F (K _ _ _ D) (match_some name) S) as (f & s' & -> & S'). cbn [fst snd]. split; [discriminate|exact S'].
  - destruct (std_sound n0 e std enc flags s F S) as (f & s' & -> & S'). cbn [fst snd]. split; [discriminate|exact S'].
  - unfold get_face. destruct (lookup e _ (imported s)) as [l|] eqn:L.
    + cbn [fst snd]. split; [|exact S]. apply lookup_full in L; [|apply S]. destruct l as [|g l]; [destruct (L eq_refl)|]. destruct (match_some (mt_name m) g l) as (x & ->). discriminate.
    + destruct (import_sound n0 e m enc flags (fun l => match l with f :: _ => Ok (Some f) | [] => UB end) s F P) as (f & s' & -> & S'); [intros f l; eauto|exact S|]. cbn [fst snd]. split; [discriminate|exact S'].
  - unfold add_font. destruct s as [imp ow pr nx]. cbn [imported owned prefix next].
    destruct (add_sound n0 e (mk_descr (mt_base m) 0 enc (mt_style m)) (found (lookup e (mk_descr (mt_base m) 0 enc (mt_style m)) imp)) (mk_font nx m name 0 enc flags) imp ow pr nx F S imp) as (s' & A & B).
    + apply put_full; [|apply S]. destruct (found _); discriminate.
    + reflexivity.
    + rewrite A. cbn [fst snd]. split; [discriminate|exact B].
  - unfold get_loaded. destruct (owner n (owned s)) as [[[|] g]|] eqn:O; cbn [fst snd]; try (split; [discriminate|exact S]). destruct (made e n) as [f|] eqn:MA; cbn [fst snd]; (split; [discriminate|]); [|exact S].
    destruct S as (I & W & N). repeat split; cbn [imported owned next]; [exact I| |exact N]. intros k v. rewrite owner_app. cbn [fst snd]. destruct (owner k (owned s)) as [w|] eqn:E; [intros _; apply W in E; exact E|].
    destruct (n =? k) eqn:B; [intros _; apply Z.eqb_eq in B; apply M in MA; lia|discriminate].
  - cbn [fst snd]. split; [discriminate|]. destruct S as (_ & W & N). repeat split; [constructor|exact W|exact N].
  - cbn [fst snd]. split; [discriminate|]. exact S.
  - cbn [fst snd]. split; [discriminate|]. destruct S as (I & W & N). repeat split; cbn [imported owned next]; [exact I| |lia]. intros k v E. apply W in E. lia.
Qed.
Lemma after_sound n0 e qs : finds e -> (forall b t m, data e b t = Some m -> mt_known m = true) -> (forall n f, made e n = Some f -> n < n0) -> Forall plain qs -> forall s, sound n0 s -> sound n0 (after e qs s).
Proof. intros F K M P. induction P as [|q qs P PS IH]; intros s S; [exact S|]. cbn [after]. apply IH. apply (ask_sound n0 e q s F K M P S). Qed.

(** ** Tags *)
Lemma bump_number n : forall l, letters l -> length l = n -> letters (bump n l) /\ length (bump n l) = n /\ number (bump n l) = (number l + 1) mod 26 ^ Z.of_nat n.
Proof.
  induction n as [|n IH]; intros l L E.
  - destruct l; [|discriminate]. cbn. repeat split; [constructor].
  - destruct l as [|c l]; [discriminate|]. injection E as E. inversion L as [|? ? C L']; subst. cbn [bump number]. rewrite Nat2Z.inj_succ, Z.pow_succ_r by lia.
    assert (B : forall l, letters l -> 0 <= number l < 26 ^ Z.of_nat (length l)).
    { clear. induction l as [|c l IH]; intros L; [cbn; lia|]. inversion L as [|? ? C L']; subst. cbn [number length]. rewrite Nat2Z.inj_succ, Z.pow_succ_r by lia. specialize (IH L'). lia. }
    specialize (B l L'). destruct (c + 1 <=? 90) eqn:K.
    + apply Z.leb_le in K. repeat split; [constructor; [lia|exact L']|]. cbn [number]. rewrite Z.mod_small by lia. lia.
    + apply Z.leb_gt in K. destruct (IH l L' eq_refl) as (A & LE & NU). repeat split; [constructor; [lia|exact A]|cbn [length]; rewrite LE; reflexivity|]. cbn [number]. rewrite NU.
      replace (c - 65 + 26 * number l + 1) with (26 * (number l + 1)) by lia. rewrite Z.mul_mod_distr_l by lia. lia.
Qed.
Lemma bump_app n : forall l r, length l = n -> bump n (l ++ r) = bump n l ++ r.
Proof.
  induction n as [|n IH]; intros l r E; [destruct l; [|discriminate]; cbn; destruct r; reflexivity|]. destruct l as [|c l]; [discriminate|]. injection E as E. cbn [app bump].
  destruct (c + 1 <=? 90); [reflexivity|]. rewrite IH by exact E. reflexivity.
Qed.
Lemma number_inj a : forall b, letters a -> letters b -> length a = length b -> number a = number b -> a = b.
Proof.
  induction a as [|c a IH]; intros [|d b] A B L N; try discriminate; [reflexivity|]. inversion A; inversion B; subst. cbn [number] in N. injection L as L.
  assert (c = d) by lia. subst d. f_equal. apply IH; try assumption. lia.
Qed.
Lemma ask_prefix e q s : prefix (snd (ask e q s)) = match q with QPrefix => fst (generate s) | _ => prefix s end.
Proof.
  assert (A : forall d l f s, prefix (snd (add_imported e d l f s)) = prefix s) by (intros; unfold add_imported; destruct (owner _ _); reflexivity).
  assert (S : forall std enc flags s, prefix (snd (get_std e std enc flags s)) = prefix s). { intros. unfold get_std. destruct (lookup _ _ _) as [[|? ?]|]; [rewrite A; reflexivity|reflexivity|rewrite A; reflexivity]. }
  assert (I : forall m enc flags mt s, prefix (snd (import_metrics e m enc flags mt s)) = prefix s).
  { intros. unfold import_metrics. destruct (lookup _ _ _) as [[|? ?]|]; try reflexivity; (destruct (mt_known m); [|reflexivity]); cbn [imported owned prefix next]; (match goal with |- context [mt ?q] => destruct (mt q) as [[x|]| | |] end); rewrite ?A; reflexivity. }
  destruct q; cbn [ask]; try reflexivity.
  - unfold get_font. destruct (match sp_auto p with Some alt => std14 e alt name | None => None end); [apply S|]. destruct (lookup _ _ _); [reflexivity|]. destruct (data e _ _); [apply I|reflexivity].
  - apply S.
  - unfold get_face. destruct (lookup _ _ _); [reflexivity|apply I].
  - unfold add_font. rewrite A. reflexivity.
  - unfold get_loaded. destruct (owner n (owned s)) as [[[|] g]|]; try reflexivity. destruct (made e n); reflexivity.
Qed.
Lemma given_number e qs : forall s l, prefix s = l ++ bs "+" -> length l = 6%nat -> letters l ->
  forall i p, nth_error (given e qs s) i = Some p -> exists k, p = k ++ bs "+" /\ length k = 6%nat /\ letters k /\ number k = (number l + Z.of_nat i + 1) mod 26 ^ 6.
Proof.
  induction qs as [|q qs IH]; intros s l P L LE i p E; cbn [given] in E; [destruct i; discriminate|].
  assert (OT : forall s', prefix s' = l ++ bs "+" -> nth_error (given e qs s') i = Some p -> exists k, p = k ++ bs "+" /\ length k = 6%nat /\ letters k /\ number k = (number l + Z.of_nat i + 1) mod 26 ^ 6) by (intros s' P' E'; exact (IH s' l P' L LE i p E')).
  pose proof (ask_prefix e q s) as AP. destruct q; cbn [app] in E; try (apply (OT _ (eq_trans AP P) E)).
  destruct (bump_number 6 l LE L) as (A & B & C). assert (G : fst (generate s) = bump 6 l ++ bs "+") by (unfold generate; cbn [fst]; rewrite P; apply bump_app; exact L).
  destruct i as [|i]; cbn [nth_error] in E.
  - injection E as <-. exists (bump 6 l). repeat split; try assumption. change (26 ^ 6) with (26 ^ Z.of_nat 6). rewrite C. f_equal. lia.
  - rewrite G in AP. destruct (IH _ (bump 6 l) AP B A i p E) as (k & K1 & K2 & K3 & K4). exists k. repeat split; try assumption. rewrite K4, C. change (Z.of_nat 6) with 6. rewrite <- Z.add_assoc. rewrite Zplus_mod_idemp_l. f_equal. lia.
Qed.
