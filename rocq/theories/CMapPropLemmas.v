(** Lemmas for the theorems on CMaps. *)
From Coq Require Import Lia String Permutation.
From Verif Require Import Base TokModel ReadEq WriteModel DictProofs TokProofs LexProofs FuelProofs ChainProofs ObjSpec ParseProofs TextModel TextSpec TextProofs CodeModel CodeSpec CodeProofs CodePropLemmas CMapModel CMapSpec CMapProofs CMapTextProofs.
Local Open Scope Z_scope.

(** ** Ranges with one code point *)
Lemma means_does r new : range_means r new -> one_point r -> range_does r new.
Proof.
  unfold range_means, range_does, one_point. intros [C D] O. split; [exact C|]. destruct (r_dest r) as [x|b xs e]; [|exact D]. destruct D as (p & T & N & L & ->). exists p. split; [exact T|]. split; [exact N|]. split; [exact L|].
  specialize (O p T). unfold range_pairs, impl_pairs. apply map_ext. intros i. unfold bump. rewrite O. destruct p as [|a [|b p]]; [contradiction|reflexivity|discriminate].
Qed.
Lemma part_does p new : part_means range_means p new -> part_one p -> part_means range_does p new.
Proof.
  intros (A & B & C & N & D) O. repeat (split; [assumption|]). unfold part_one in O. destruct (p_body p) as [xs|rs]; [exact D|]. destruct D as (pss & F & ->). exists pss. split; [|reflexivity]. clear - F O.
  induction F as [|r q rs pss X F IH]; constructor; [apply means_does; [exact X|]|apply IH]; inversion O; assumption.
Qed.
Lemma parts_do parts news : Forall2 (part_means range_means) parts news -> Forall part_one parts -> Forall2 (part_means range_does) parts news.
Proof. induction 1 as [|p new parts news D F IH]; intros O; constructor; [apply part_does; [exact D|]|apply IH]; inversion O; assumption. Qed.

(** ** Reading ends *)
Lemma next_mu s i s' : ps_next s = Ok (Some (i, s')) -> (S (mu s') <= mu s)%nat.
Proof.
  unfold ps_next. destruct (next_token (rbuf ps_params) s) as [[[ty t] s1]|] eqn:E; [|discriminate]. apply next_token_mu in E.
  assert (G : (do (dt, s2) <- determine (rbuf ps_params) (rrefs ps_params) (ty, t) s1; do (v, s3) <- read_data ps_params (ps_fuel s2) 0 dt s2; Ok (Some (match v with Some o => PVal o | None => PKey t end, s3))) = Ok (Some (i, s')) -> (S (mu s') <= mu s)%nat).
  { intros H. apply bind_ok in H as ([dt s2] & E1 & H). apply bind_ok in H as ([v s3] & E2 & H). injection H as _ <-. apply determine_mu in E1. apply (proj1 (proj2 (read_mu ps_params (ps_fuel s2)))) in E2. lia. }
  destruct ty; try exact G; intros H; injection H as _ <-; exact E.
Qed.
Lemma determine_nofuel buf rr t s : determine buf rr t s <> Fuel.
Proof. pose proof (read_nofuel (mk_rp buf rr 256) (S (3 * mu s + 3))) as [V _]. specialize (V 0%nat t s ltac:(lia)). rewrite read_variant_S in V. cbn [rmax rbuf rrefs] in V. intros E. rewrite E in V. apply V. reflexivity. Qed.
Lemma next_nofuel s : ps_next s <> Fuel.
Proof.
  unfold ps_next. destruct (next_token (rbuf ps_params) s) as [[[ty t] s1]|] eqn:E; [|discriminate].
  assert (G : (do (dt, s2) <- determine (rbuf ps_params) (rrefs ps_params) (ty, t) s1; do (v, s3) <- read_data ps_params (ps_fuel s2) 0 dt s2; Ok (Some (match v with Some o => PVal o | None => PKey t end, s3))) <> Fuel).
  { intros H. destruct (determine _ _ _ s1) as [[dt s2]| | |] eqn:E1; cbn [bind] in H; try discriminate; [|exact (determine_nofuel _ _ _ _ E1)].
    destruct (read_data ps_params (ps_fuel s2) 0 dt s2) as [[v s3]| | |] eqn:E2; cbn [bind] in H; try discriminate. refine (proj1 (proj2 (read_nofuel ps_params (ps_fuel s2))) 0%nat dt s2 _ E2). unfold ps_fuel, mu. lia. }
  destruct ty; try exact G; discriminate.
Qed.
Lemma variant_mu s o s' : ps_variant s = Ok (o, s') -> (S (mu s') <= mu s)%nat.
Proof.
  unfold ps_variant, read_next. destruct (next_token (rbuf ps_params) s) as [[t s1]|] eqn:E; [|discriminate]. apply next_token_mu in E. intros H. apply bind_ok in H as ([v s2] & E1 & H). destruct v; [|discriminate]. injection H as _ <-. apply (proj1 (read_mu ps_params (ps_fuel s))) in E1. lia.
Qed.
Lemma variant_nofuel s : ps_variant s <> Fuel.
Proof.
  unfold ps_variant, read_next. destruct (next_token (rbuf ps_params) s) as [[t s1]|] eqn:E; [|discriminate]. apply next_token_mu in E. destruct (read_variant ps_params (ps_fuel s) 0 t s1) as [[[v|] s2]| | |] eqn:E1; cbn [bind]; try discriminate.
  exfalso. refine (proj1 (read_nofuel ps_params (ps_fuel s)) 0%nat t s1 _ E1). unfold ps_fuel, mu in *. lia.
Qed.
Lemma bind_nofuel (A B : Type) (r : res A) (k : A -> res B) : r <> Fuel -> (forall x, r = Ok x -> k x <> Fuel) -> bind r k <> Fuel.
Proof. intros R K. destruct r; cbn [bind]; try discriminate; [apply K; reflexivity|contradiction]. Qed.
Ltac nf := apply bind_nofuel; [|].
Lemma append_nofuel cp : utf8_append cp <> Fuel.
Proof. unfold utf8_append. destruct (negb _); [discriminate|]. destruct (cp <? 128); [discriminate|]. destruct (cp <? 2048); [discriminate|]. destruct (cp <? 65536); discriminate. Qed.
Lemma sequence_shorter len l x r : get_sequence len l = Ok (x, r) -> (length r < length l)%nat.
Proof.
  unfold get_sequence. destruct l as [|c0 l]; [discriminate|]. destruct (len =? 1); [intros H; injection H as _ <-; cbn; lia|]. destruct l as [|c1 l]; [discriminate|]. destruct (negb _); [discriminate|]. destruct (len =? 2); [intros H; injection H as _ <-; cbn; lia|].
  destruct l as [|c2 l]; [discriminate|]. destruct (negb _); [discriminate|]. destruct (len =? 3); [intros H; injection H as _ <-; cbn; lia|]. destruct l as [|c3 l]; [discriminate|]. destruct (negb _); [discriminate|]. intros H; injection H as _ <-; cbn; lia.
Qed.
Lemma sequence_nofuel len l : get_sequence len l <> Fuel.
Proof.
  unfold get_sequence. destruct l as [|c0 l]; [discriminate|]. destruct (len =? 1); [discriminate|]. destruct l as [|c1 l]; [discriminate|]. destruct (negb _); [discriminate|]. destruct (len =? 2); [discriminate|].
  destruct l as [|c2 l]; [discriminate|]. destruct (negb _); [discriminate|]. destruct (len =? 3); [discriminate|]. destruct l as [|c3 l]; [discriminate|]. destruct (negb _); discriminate.
Qed.
Lemma utf8_next_shorter l x r : utf8_next l = Ok (x, r) -> (length r < length l)%nat.
Proof.
  unfold utf8_next. destruct l as [|c l]; [discriminate|]. destruct (_ =? 0); [discriminate|]. intros H. apply bind_ok in H as ([cp r'] & E & H). destruct (code_point_valid cp); [|discriminate]. destruct (overlong _ _); [discriminate|]. injection H as <- <-. exact (sequence_shorter _ _ _ _ E).
Qed.
Lemma utf8_next_nofuel l : utf8_next l <> Fuel.
Proof.
  unfold utf8_next. destruct l as [|c l]; [discriminate|]. destruct (_ =? 0); [discriminate|]. apply bind_nofuel; [apply sequence_nofuel|]. intros [cp r] _. destruct (code_point_valid cp); [|discriminate]. destruct (overlong _ _); discriminate.
Qed.
Lemma utf8_fold_nofuel : forall f l, (length l <= f)%nat -> utf8_fold f l <> Fuel.
Proof.
  induction f as [|f IH]; intros l L; (destruct l as [|c l]; [discriminate|]); [cbn [length] in L; lia|]. cbn [utf8_fold]. apply bind_nofuel; [apply utf8_next_nofuel|]. intros [cp r] E. apply utf8_next_shorter in E. apply bind_nofuel; [apply IH; cbn [length] in *; lia|discriminate].
Qed.
Lemma points_nofuel l : utf8_points l <> Fuel.
Proof. exact (utf8_fold_nofuel (length l) l (le_n _)). Qed.
Lemma units_nofuel n : forall l, (length l <= n)%nat -> units_be l <> Fuel.
Proof. induction n as [|n IH]; intros l L; destruct l as [|a [|b l]]; try discriminate; cbn [length] in L; try lia. cbn [units_be]. apply bind_nofuel; [apply IH; lia|discriminate]. Qed.
Lemma utf16to8_nofuel n : forall l, (length l <= n)%nat -> utf16to8 l <> Fuel.
Proof.
  induction n as [|n IH]; intros l L; (destruct l as [|a l]; [discriminate|]); cbn [length] in L; [lia|]. cbn [utf16to8]. destruct (is_lead_surrogate a).
  - destruct l as [|t l]; [discriminate|]. destruct (is_trail_surrogate t); [|discriminate]. apply bind_nofuel; [apply append_nofuel|]. intros x _. apply bind_nofuel; [apply IH; cbn [length] in L; lia|discriminate].
  - destruct (is_trail_surrogate a); [discriminate|]. apply bind_nofuel; [apply append_nofuel|]. intros x _. apply bind_nofuel; [apply IH; lia|discriminate].
Qed.
Lemma string_nofuel x : string_mapping x <> Fuel.
Proof. unfold string_mapping, read_utf16be. apply bind_nofuel; [|intros u _; apply points_nofuel]. apply bind_nofuel; [exact (units_nofuel _ x (le_n _))|]. intros u _. exact (utf16to8_nofuel _ u (le_n _)). Qed.
Lemma name_nofuel n : name_mapping n <> Fuel.
Proof.
  unfold name_mapping. apply bind_nofuel.
  - induction n as [|c n IH]; [discriminate|]. cbn [doc_to_utf8]. apply bind_nofuel; [apply append_nofuel|]. intros a _. apply bind_nofuel; [exact IH|]. intros [o e] _. discriminate.
  - intros [u same] _. apply points_nofuel.
Qed.
Lemma push_nofuel m c p : push_mapping m c p <> Fuel.
Proof. unfold push_mapping, push. destruct p; [discriminate|]. destruct (_ =? 0); discriminate. Qed.
Lemma push_range_nofuel lo base back size : forall n m i, push_range m lo base back size i n <> Fuel.
Proof. induction n as [|n IH]; intros m i; [discriminate|]. cbn [push_range]. apply bind_nofuel; [apply push_nofuel|]. intros m' _. apply IH. Qed.
Lemma push_array_nofuel lo size range : forall l m i, push_array m lo size i range l <> Fuel.
Proof.
  induction l as [|o l IH]; intros m i; cbn [push_array]; (destruct (i <? range); [|discriminate]); [discriminate|]. apply bind_nofuel.
  - destruct o as [| | | |n|[] x| | |]; try discriminate; [apply name_nofuel|apply string_nofuel].
  - intros cps _. apply bind_nofuel; [apply push_nofuel|]. intros m' _. apply IH.
Qed.
Lemma handle_nofuel m lo dst size range : handle_range m lo dst size range <> Fuel.
Proof. unfold handle_range. destruct dst; [discriminate|]. apply push_range_nofuel. Qed.
Lemma dest_nofuel m lo size range o : bf_destination m lo size range o <> Fuel.
Proof.
  destruct o as [| | | |n|[] x| |l|]; try discriminate; cbn [bf_destination]; [| |apply push_array_nofuel]; (apply bind_nofuel; [first [apply name_nofuel|apply string_nofuel]|intros d _; apply handle_nofuel]).
Qed.
Lemma code_nofuel o l : get_code o l <> Fuel.
Proof. unfold get_code. apply bind_nofuel; [|discriminate]. unfold code_of_variant. destruct o; try discriminate; match goal with |- (if ?b then _ else _) <> _ => destruct b end; discriminate. Qed.
Lemma sequence_mu key s v s' : read_sequence key s = Ok (v, s') -> (S (mu s') <= mu s)%nat.
Proof.
  unfold read_sequence. intros H. apply bind_ok in H as (r & E & H). destruct r as [[[t|o|] s1]|]; try discriminate; apply next_mu in E; [destruct (beq t key); [|discriminate]|]; injection H as _ <-; exact E.
Qed.
Lemma sequence_nofuel' key s : read_sequence key s <> Fuel.
Proof. unfold read_sequence. apply bind_nofuel; [apply next_nofuel|]. intros [[[t|o|] s1]|] _; try discriminate. destruct (beq t key); discriminate. Qed.
Definition ends (r : res cstate) (n : nat) : Prop := r <> Fuel /\ forall c, r = Ok c -> (mu (cs_tok c) <= n)%nat.
Lemma ends_bind (A : Type) (r : res A) k n : r <> Fuel -> (forall x, r = Ok x -> ends (k x) n) -> ends (bind r k) n.
Proof. intros R K. destruct r as [x| | |]; cbn [bind]; [exact (K x eq_refl)| | |contradiction]; split; discriminate. Qed.
Lemma ends_le r n n' : ends r n -> (n <= n')%nat -> ends r n'.
Proof. intros [A B] L. split; [exact A|]. intros c E. specialize (B c E). lia. Qed.
Lemma ends_ok c n : (mu (cs_tok c) <= n)%nat -> ends (Ok c) n.
Proof. intros L. split; [discriminate|]. intros c' E. injection E as <-. exact L. Qed.
Ltac codes := apply ends_bind; [apply code_nofuel|intros [? ?] _].
Ltac variant := apply ends_bind; [apply variant_nofuel|]; let H := fresh "V" in intros [? ?] H; apply variant_mu in H.
Lemma codespace_ends : forall f c, (mu (cs_tok c) < f)%nat -> ends (codespace f c) (mu (cs_tok c)).
Proof.
  induction f as [|f IH]; intros c L; [lia|]. cbn [codespace]. apply ends_bind; [apply sequence_nofuel'|]. intros [[o|] s] E; apply sequence_mu in E.
  - codes. variant. codes. match goal with |- ends (codespace f ?x) _ => apply (ends_le _ (mu (cs_tok x))); [apply IH|]; cbn [cs_tok]; lia end.
  - apply ends_ok. cbn [cs_tok]. lia.
Qed.
Lemma bfrange_ends : forall f c, (mu (cs_tok c) < f)%nat -> ends (bfrange f c) (mu (cs_tok c)).
Proof.
  induction f as [|f IH]; intros c L; [lia|]. cbn [bfrange]. apply ends_bind; [apply sequence_nofuel'|]. intros [[o|] s] E; apply sequence_mu in E.
  - codes. variant. codes. variant. apply ends_bind; [apply dest_nofuel|]. intros m _. match goal with |- ends (bfrange f ?x) _ => apply (ends_le _ (mu (cs_tok x))); [apply IH|]; cbn [cs_tok]; lia end.
  - apply ends_ok. cbn [cs_tok]. lia.
Qed.
Lemma bfchar_ends : forall f c, (mu (cs_tok c) < f)%nat -> ends (bfchar f c) (mu (cs_tok c)).
Proof.
  induction f as [|f IH]; intros c L; [lia|]. cbn [bfchar]. apply ends_bind; [apply sequence_nofuel'|]. intros [[o|] s] E; apply sequence_mu in E.
  - codes. variant. apply ends_bind.
    + match goal with |- match ?x with _ => _ end <> _ => destruct x as [| | | |n|[] x| |l'|] end; try discriminate; (apply bind_nofuel; [first [apply code_nofuel|apply name_nofuel|apply string_nofuel]|]); [intros [? ?] _|intros ? _|intros ? _]; discriminate.
    + intros [cps l2] _. apply ends_bind; [apply push_nofuel|]. intros m _. match goal with |- ends (bfchar f ?x) _ => apply (ends_le _ (mu (cs_tok x))); [apply IH|]; cbn [cs_tok]; lia end.
  - apply ends_ok. cbn [cs_tok]. lia.
Qed.
Lemma cidrange_ends : forall f c, (mu (cs_tok c) < f)%nat -> ends (cidrange f c) (mu (cs_tok c)).
Proof.
  induction f as [|f IH]; intros c L; [lia|]. cbn [cidrange]. apply ends_bind; [apply sequence_nofuel'|]. intros [[o|] s] E; apply sequence_mu in E.
  - codes. variant. codes. variant. codes. apply ends_bind; [apply push_range_nofuel|]. intros m _. match goal with |- ends (cidrange f ?x) _ => apply (ends_le _ (mu (cs_tok x))); [apply IH|]; cbn [cs_tok]; lia end.
  - apply ends_ok. cbn [cs_tok]. lia.
Qed.
Lemma cidchar_ends : forall f n o c, (mu (cs_tok c) < f)%nat -> ends (cidchar f n o c) (mu (cs_tok c)).
Proof.
  induction f as [|f IH]; intros n o c L; [lia|]. cbn [cidchar]. destruct (0 <? n); [|apply ends_ok; lia]. apply ends_bind; [apply next_nofuel|]. intros r E.
  assert (G : forall o s, (mu s <= mu (cs_tok c))%nat -> ends (do (src, l) <- get_code o (cs_lim c); do (o, s) <- ps_variant s; do (d, l) <- get_code o l; do m <- push_mapping (cs_map c) src [c_num d]; cidchar f (n - 1) o (mk_cs m l s)) (mu (cs_tok c))).
  { intros o1 s1 L1. codes. variant. codes. apply ends_bind; [apply push_nofuel|]. intros m _. match goal with |- ends (cidchar f _ _ ?x) _ => apply (ends_le _ (mu (cs_tok x))); [apply IH|]; cbn [cs_tok]; lia end. }
  destruct r as [[[t|v|] s1]|]; try (apply next_mu in E); apply G; lia.
Qed.
Lemma section_ends f t tokens c : (mu (cs_tok c) < f)%nat -> ends (section f t tokens c) (mu (cs_tok c)).
Proof.
  intros L. unfold section. destruct (beq t _); [exact (codespace_ends f c L)|]. destruct (beq t _); [exact (bfrange_ends f c L)|]. destruct (beq t _); [exact (bfchar_ends f c L)|]. destruct (beq t _); [exact (cidrange_ends f c L)|].
  destruct (beq t _); [|apply ends_ok; lia]. unfold cidchars. destruct tokens as [|o [|? ?]]; try (split; discriminate); destruct o; try (split; discriminate). apply cidchar_ends. exact L.
Qed.
Lemma loop_nofuel : forall f tokens c, (mu (cs_tok c) < f)%nat -> cmap_loop f tokens c <> Fuel.
Proof.
  induction f as [|f IH]; intros tokens c L; [lia|]. rewrite cmap_loop_S. apply bind_nofuel; [apply next_nofuel|]. intros [[[t|o|] s]|] E; try discriminate; apply next_mu in E.
  - destruct (section_ends f t tokens (mk_cs (cs_map c) (cs_lim c) s) ltac:(cbn [cs_tok]; lia)) as [S1 S2]. apply bind_nofuel; [exact S1|]. intros c' E'. apply IH. specialize (S2 c' E'). cbn [cs_tok] in S2. lia.
  - apply IH. cbn [cs_tok]. lia.
Qed.
Lemma parse_nofuel text : parse_cmap text <> Fuel.
Proof. unfold parse_cmap. apply loop_nofuel. unfold mu. cbn [cs_tok tin tq length]. lia. Qed.
