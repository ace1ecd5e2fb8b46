(** C154-C157: the fonts of a document *)
From Coq Require Import String.
From Verif Require Import Base FontCacheModel FontCacheSpec FontCacheProofs.
Local Open Scope Z_scope.

(** ** A small world for the examples: the fonts Arial and Arial Bold are installed, a font of another type, and Helvetica and Times are standard *)
Definition bold (n : list Z) : bool := beq n (bs "Arial-Bold") || beq n (bs "ArialBold").
Definition arial (st : Z) : metrics := mk_metrics (if st =? 0 then bs "Arial" else bs "Arial-Bold") (bs "Arial") st true.
Definition world : env := mk_env (fun n => if bold n then (bs "Arial", 1) else (n, 0))
  (fun _ n => if beq n (bs "Helvetica") then Some 5 else if beq n (bs "Times-Roman") then Some 1 else None)
  (fun n st => if beq n (bs "Arial") then Some (arial st) else if beq n (bs "Odd") then Some (mk_metrics n n st false) else None)
  (fun m _ => mt_base m) (fun k => mk_metrics (if k =? 5 then bs "Helvetica" else bs "Times-Roman") (if k =? 5 then bs "Helvetica" else bs "Times-Roman") 0 true)
  (fun n => if n =? 3 then Some (mk_font 3 (arial 0) (bs "Arial") 0 7 0) else None) (fun a b => ds_std a =? ds_std b).
Definition loose : env := mk_env (extract world) (std14 world) (data world) (new_name world) (std_metrics world) (made world) (fun _ _ => true).
Definition any : search := mk_search 0 false (Some false).
Definition exactly : search := mk_search 0 true (Some false).

(** ** C154 *)
(** A font that has been got by its name is got again, and nothing is made *)
Theorem C154_twice : forall e name p enc flags s f s', finds e -> get_font e name p enc flags s = (Ok (Some f), s') -> get_font e name p enc flags s' = (Ok (Some f), s').
Proof. intros e name p enc flags s f s'. apply font_twice. Qed.
Print Assumptions C154_twice.
Theorem C154_std_twice : forall e std enc flags s f s', finds e -> get_std e std enc flags s = (Ok (Some f), s') -> get_std e std enc flags s' = (Ok (Some f), s').
Proof. intros e std enc flags s f s' F. apply std_twice; auto. Qed.
Print Assumptions C154_std_twice.
(** The font of an object of a document is made once *)
Theorem C154_loaded : forall e n s f s', get_loaded e n s = (Ok (Some f), s') -> get_loaded e n s' = (Ok (Some f), s').
Proof.
  intros e n s f s' G. unfold get_loaded in G. destruct (owner n (owned s)) as [[[|] g]|] eqn:O; [|discriminate|].
  - apply pair_equal_spec in G. destruct G as [G <-]. unfold get_loaded. rewrite O, G. reflexivity.
  - destruct (made e n) as [g|]; [|discriminate]. apply pair_equal_spec in G. destruct G as [G <-]. unfold get_loaded. cbn [owned]. rewrite owner_app, O. cbn [fst snd]. rewrite Z.eqb_refl, G. reflexivity.
Qed.
Print Assumptions C154_loaded.
(** False: the font of the object of a font that has been made in the document is not got, but an error *)
Theorem C154_imported_refuted : forall e n s f, owner n (owned s) = Some (false, f) -> get_loaded e n s = (Err EInvalidFontFile, s).
Proof. intros e n s f O. unfold get_loaded. rewrite O. reflexivity. Qed.
Print Assumptions C154_imported_refuted.
Example C154_case : let '(r, s) := get_font world (bs "Arial-Bold") any 7 0 (new_cache 10) in
  r = Ok (Some (mk_font 10 (arial 1) (bs "Arial") 0 7 0)) /\ get_font world (bs "Arial-Bold") any 7 0 s = (r, s) /\ get_loaded world 10 s = (Err EInvalidFontFile, s) /\
  fst (get_font world (bs "Arial") any 7 0 s) = Ok (Some (mk_font 11 (arial 0) (bs "Arial") 0 7 0)).
Proof. vm_compute. repeat split. Qed.

(** ** C155 *)
Lemma hit_same e d k : hit e d k = true -> ds_enc d = ds_enc k /\ ds_style d = ds_style k /\ ds_name d = ds_name k /\ near e d k = true.
Proof.
  unfold hit, equal_elem. intros H. apply andb_true_iff in H. destruct H as [N H]. apply andb_true_iff in H. destruct H as [H B]. apply andb_true_iff in H. destruct H as [A C].
  apply Z.eqb_eq in A, C. apply beq_eq in B. auto.
Qed.
(** Whatever has been asked before, the font has the encoding that is asked for *)
Theorem C155_encoding : forall e qs n name p enc flags f s', finds e -> get_font e name p enc flags (after e qs (new_cache n)) = (Ok (Some f), s') -> fo_enc f = enc.
Proof.
  intros e qs n name p enc flags f s' F G. set (P := fun d f => fo_enc f = ds_enc d).
  assert (C : forall d k f, hit e d k = true -> P k f <-> P d f) by (intros d k g H; apply hit_same in H; unfold P; intuition congruence).
  assert (F1 : forall id m name enc flags, P (mk_descr (mt_base m) 0 enc (mt_style m)) (mk_font id m name 0 enc flags)) by reflexivity.
  assert (F2 : forall id m name std enc flags, P (mk_descr [] std enc 0) (mk_font id m name std enc flags)) by reflexivity.
  assert (A : holds P (imported (after e qs (new_cache n)))) by (apply after_holds; try assumption; constructor).
  destruct (font_result e P C F1 F2 _ _ _ _ _ _ _ F A G) as [(alt & std & _ & _ & H) | [H | (m & _ & H)]]; exact H.
Qed.
Print Assumptions C155_encoding.
(** A font that is not standard has the base name and the style that are asked for, or those of the font that is installed for them *)
Theorem C155_name : forall e qs n name p enc flags f s', finds e -> get_font e name p enc flags (after e qs (new_cache n)) = (Ok (Some f), s') ->
  (forall alt, sp_auto p = Some alt -> std14 e alt name = None) -> fst (extract e name) <> [] -> (forall b st m, data e b st = Some m -> mt_base m <> []) ->
  let style := Z.lor (sp_style p) (snd (extract e name)) in
  (mt_base (fo_metrics f) = fst (extract e name) /\ mt_style (fo_metrics f) = style) \/
  exists m, data e (fst (extract e name)) style = Some m /\ mt_base (fo_metrics f) = mt_base m /\ mt_style (fo_metrics f) = mt_style m.
Proof.
  intros e qs n name p enc flags f s' F G NS NE ND style. set (P := fun d f => ds_name d <> [] -> mt_base (fo_metrics f) = ds_name d /\ mt_style (fo_metrics f) = ds_style d).
  assert (C : forall d k f, hit e d k = true -> P k f <-> P d f). { intros d k g H. apply hit_same in H. destruct H as (_ & ST & NA & _). unfold P. rewrite ST, NA. reflexivity. }
  assert (F1 : forall id m name enc flags, P (mk_descr (mt_base m) 0 enc (mt_style m)) (mk_font id m name 0 enc flags)) by (intros; intros _; split; reflexivity).
  assert (F2 : forall id m name std enc flags, P (mk_descr [] std enc 0) (mk_font id m name std enc flags)). { intros; intros H; cbn in H; congruence. }
  assert (A : holds P (imported (after e qs (new_cache n)))) by (apply after_holds; try assumption; constructor).
  destruct (font_result e P C F1 F2 _ _ _ _ _ _ _ F A G) as [(alt & std & S & T & H) | [H | (m & D & H)]].
  - rewrite (NS alt S) in T. discriminate.
  - left. apply H. exact NE.
  - right. exists m. split; [exact D|]. apply H. apply (ND _ _ _ D).
Qed.
Print Assumptions C155_name.
(** A font that is asked for by its exact name has it *)
Theorem C155_exact : forall e name p enc flags s f s', finds e -> sp_exact p = true -> (forall alt, sp_auto p = Some alt -> std14 e alt name = None) ->
  get_font e name p enc flags s = (Ok (Some f), s') -> mt_name (fo_metrics f) = name.
Proof.
  intros e name p enc flags s f s' F X NS G. assert (M : forall l g, match_font true name l = Ok (Some g) -> mt_name (fo_metrics g) = name).
  { intros l g E. unfold match_font in E. injection E as E. apply find_some in E. destruct E as [_ E]. apply beq_eq in E. exact E. }
  unfold get_font in G. rewrite X in G. assert (N : match sp_auto p with Some alt => std14 e alt name | None => None end = None) by (destruct (sp_auto p); [apply NS|]; reflexivity).
  rewrite N in G. destruct (lookup e _ (imported s)) as [l|]; [apply pair_equal_spec in G; destruct G as [G _]; exact (M _ _ G)|].
  destruct (data e _ _) as [m|]; [|discriminate]. destruct (import_cases _ _ _ _ _ _ _ _ F G) as [(l & _ & _ & G' & _) | (_ & _ & _ & x & G')]; [exact (M _ _ G')|].
  rewrite <- (match_one _ _ _ _ G'). exact (M _ _ G').
Qed.
Print Assumptions C155_exact.
(** Missing: tables of hashes that come to compare the keys of two standard fonts, see [C155_std_refuted] *)
Theorem C155_std_partial : forall e qs n std enc flags f s', separates e -> std <> 0 -> get_std e std enc flags (after e qs (new_cache n)) = (Ok (Some f), s') ->
  fo_std f = std /\ fo_enc f = enc.
Proof.
  intros e qs n std enc flags f s' S NZ G. set (P := fun d f => (ds_std d <> 0 -> fo_std f = ds_std d) /\ fo_enc f = ds_enc d).
  assert (C : forall d k f, hit e d k = true -> P k f <-> P d f). { intros d k g H. apply hit_same in H. destruct H as (EN & _ & _ & N). apply S in N. unfold P. rewrite N, EN. reflexivity. }
  assert (F1 : forall id m name enc flags, P (mk_descr (mt_base m) 0 enc (mt_style m)) (mk_font id m name 0 enc flags)). { intros. split; [intros H; cbn in H; congruence|reflexivity]. }
  assert (F2 : forall id m name std enc flags, P (mk_descr [] std enc 0) (mk_font id m name std enc flags)) by (intros; split; reflexivity).
  assert (A : holds P (imported (after e qs (new_cache n)))) by (apply after_holds; try assumption; constructor).
  destruct (std_result e P C F2 _ _ _ _ _ _ A G) as [H E]. split; [apply H; exact NZ|exact E].
Qed.
Print Assumptions C155_std_partial.
(** False: keys that are compared are equal although the standard fonts differ; Times is asked for after Helvetica, and Helvetica is got *)
Theorem C155_std_refuted : exists e s, finds e /\ s = after e [QStd 5 7 0] (new_cache 10) /\ get_std e 1 7 0 s = get_std e 5 7 0 s /\
  exists f, fst (get_std e 1 7 0 s) = Ok (Some f) /\ fo_std f = 5.
Proof. exists loose. eexists. split; [intros d; reflexivity|]. split; [reflexivity|]. split; [vm_compute; reflexivity|]. eexists. split; vm_compute; reflexivity. Qed.
Print Assumptions C155_std_refuted.
(** False: the flags, as whether the font is embedded or subset, are those of the first who asked *)
Theorem C155_flags_refuted : forall e name p enc flags flags' s f s', finds e -> get_font e name p enc flags s = (Ok (Some f), s') -> get_font e name p enc flags' s' = (Ok (Some f), s').
Proof. exact font_twice. Qed.
Print Assumptions C155_flags_refuted.
Example C155_case : fst (get_std world 1 7 0 (after world [QStd 5 7 0] (new_cache 10))) = Ok (Some (mk_font 11 (std_metrics world 1) (bs "Times-Roman") 1 7 0)) /\
  fst (get_font world (bs "Arial") exactly 7 0 (new_cache 10)) = Ok (Some (mk_font 10 (arial 0) (bs "Arial") 0 7 0)) /\ fst (get_font world (bs "ArialBold") exactly 7 0 (new_cache 10)) = Ok None /\
  fst (get_font world (bs "Arial") any 8 0 (after world [QFont (bs "Arial") any 7 0] (new_cache 10))) = Ok (Some (mk_font 11 (arial 0) (bs "Arial") 0 8 0)) /\
  fst (get_font world (bs "Arial") any 7 2 (after world [QFont (bs "Arial") any 7 0] (new_cache 10))) = Ok (Some (mk_font 10 (arial 0) (bs "Arial") 0 7 0)).
Proof. vm_compute. repeat split. Qed.

(** ** C156 *)
(** Missing: names that must be exact and fonts of an unknown type, see the refutations; and the fonts of objects which the document gets later *)
Theorem C156_safe_partial : forall e qs q n, finds e -> (forall b t m, data e b t = Some m -> mt_known m = true) -> (forall k f, made e k = Some f -> k < n) ->
  Forall plain (qs ++ [q]) -> fst (ask e q (after e qs (new_cache n))) <> UB.
Proof.
  intros e qs q n F K M P. apply Forall_app in P. destruct P as [PS P]. apply Forall_inv in P. apply (ask_sound n e q); try assumption. apply after_sound; try assumption.
  repeat split; cbn [imported owned next new_cache]; [constructor|discriminate|lia].
Qed.
Print Assumptions C156_safe_partial.
(** False: an exact name that no font has leaves an empty list behind; the next who asks without that reads its first font *)
Theorem C156_exact_refuted : exists e qs q, finds e /\ fst (ask e q (new_cache 10)) <> UB /\ fst (ask e q (after e qs (new_cache 10))) = UB /\ exists name, qs = [QFont name exactly 7 0] /\ q = QFont (bs "Arial-Bold") any 7 0.
Proof. exists world, [QFont (bs "ArialBold") exactly 7 0], (QFont (bs "Arial-Bold") any 7 0). split; [intros d; apply Z.eqb_refl|]. split; [vm_compute; discriminate|]. split; [vm_compute; reflexivity|]. eauto. Qed.
Print Assumptions C156_exact_refuted.
(** False: a font of an unknown type is an error the first time, and undefined the second time *)
Theorem C156_unsupported_refuted : exists e q, finds e /\ fst (ask e q (new_cache 10)) = Err EUnsupportedFontFormat /\ fst (ask e q (snd (ask e q (new_cache 10)))) = UB.
Proof. exists world, (QFont (bs "Odd") any 7 0). split; [intros d; apply Z.eqb_refl|]. split; vm_compute; reflexivity. Qed.
Print Assumptions C156_unsupported_refuted.
Example C156_case : fst (ask world (QLoaded 3) (after world [QFont (bs "Arial") any 7 0; QAdd (arial 0) (bs "AAAAAB+Arial") 7 0; QLoaded 3; QEmbed; QFont (bs "Arial") any 7 0] (new_cache 10))) = Ok (made world 3) /\
  owned (after world [QFont (bs "Arial") any 7 0; QEmbed; QFont (bs "Arial") any 7 0] (new_cache 10)) =
    [(10, (false, mk_font 10 (arial 0) (bs "Arial") 0 7 0)); (11, (false, mk_font 11 (arial 0) (bs "Arial") 0 7 0))].
Proof. vm_compute. repeat split. Qed.

(** ** C157 *)
Lemma given_new e qs n i p : nth_error (given e qs (new_cache n)) i = Some p -> exists k, p = k ++ bs "+" /\ length k = 6%nat /\ letters k /\ number k = (Z.of_nat i + 1) mod 26 ^ 6.
Proof.
  intros E. assert (L : letters (bs "AAAAAA")) by (unfold letters; rewrite Forall_forall; cbn; intros x H; lia).
  exact (given_number e qs (new_cache n) (bs "AAAAAA") eq_refl eq_refl L i p E).
Qed.
(** What is given out are subset tags *)
Theorem C157_tags : forall e qs n p, List.In p (given e qs (new_cache n)) -> tag p.
Proof. intros e qs n p I. apply In_nth_error in I. destruct I as [i E]. apply given_new in E. destruct E as (k & A & B & C & _). exists k. auto. Qed.
Print Assumptions C157_tags.
(** Missing: tags that are 26^6 apart, see [C157_wrap_refuted] *)
Theorem C157_distinct_partial : forall e qs n i j p q, nth_error (given e qs (new_cache n)) i = Some p -> nth_error (given e qs (new_cache n)) j = Some q ->
  (i < j)%nat -> Z.of_nat j - Z.of_nat i < 26 ^ 6 -> p <> q.
Proof.
  intros e qs n i j p q P Q L D E. subst q. apply given_new in P, Q. destruct P as (k & A & _ & _ & N). destruct Q as (k' & A' & _ & _ & N'). rewrite A in A'. apply app_inv_tail in A'. subst k'.
  rewrite N in N'. assert (Z : (Z.of_nat j - Z.of_nat i) mod 26 ^ 6 = 0). { replace (Z.of_nat j - Z.of_nat i) with ((Z.of_nat j + 1) - (Z.of_nat i + 1)) by lia. rewrite Zminus_mod, N', Z.sub_diag. reflexivity. }
  rewrite Z.mod_small in Z; lia.
Qed.
Print Assumptions C157_distinct_partial.
Lemma given_length e n : forall s, length (given e (repeat QPrefix n) s) = n.
Proof. induction n as [|n IH]; intros s; [reflexivity|]. cbn [repeat given app length]. rewrite IH. reflexivity. Qed.
(** False: after 26^6 tags they are given out again *)
Theorem C157_wrap_refuted : forall e n, exists qs i j p, (i < j)%nat /\ nth_error (given e qs (new_cache n)) i = Some p /\ nth_error (given e qs (new_cache n)) j = Some p.
Proof.
  intros e n. remember (Z.to_nat (26 ^ 6)) as N eqn:EN. assert (NZ : Z.of_nat N = 26 ^ 6) by (rewrite EN; apply Z2Nat.id; lia). clear EN.
  pose proof (given_length e (S N) (new_cache n)) as GL. set (g := given e (repeat QPrefix (S N)) (new_cache n)) in *.
  destruct (nth_error g 0) as [p|] eqn:P; [|apply nth_error_None in P; lia]. destruct (nth_error g N) as [q|] eqn:Q; [|apply nth_error_None in Q; lia].
  exists (repeat QPrefix (S N)), 0%nat, N, p. split; [lia|]. split; [exact P|]. fold g. rewrite Q. f_equal. unfold g in P, Q. apply given_new in P, Q. destruct P as (k & A & L & LE & NU). destruct Q as (k' & A' & L' & LE' & NU').
  rewrite A, A'. f_equal. apply number_inj; [exact LE'|exact LE|congruence|]. rewrite NU, NU', NZ. change (Z.of_nat 0) with 0. replace (26 ^ 6 + 1) with (0 + 1 + 1 * 26 ^ 6) by lia. rewrite Z_mod_plus_full. reflexivity.
Qed.
Print Assumptions C157_wrap_refuted.
Example C157_case : given world [QPrefix; QStd 5 7 0; QPrefix; QEmbed; QPrefix] (new_cache 10) = [bs "BAAAAA+"; bs "CAAAAA+"; bs "DAAAAA+"] /\ bump 6 (bs "ZZAAAA+") = bs "AABAAA+" /\ bump 6 (bs "ZZZZZZ+") = bs "AAAAAA+".
Proof. vm_compute. repeat split. Qed.
