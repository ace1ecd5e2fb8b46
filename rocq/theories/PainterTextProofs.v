(** Lemmas about the texts of the painter: what is written is a text of instructions. *)
From Coq Require Import String QArith.
From Verif Require Import Base TokModel WriteModel TokProofs RealProofs DictProofs ObjSpec LexProofs RealParse CMapModel CMapSpec ContentsModel ContentsSpec PainterModel PainterSpec.
Local Open Scope Z_scope.

(** ** Numbers *)
Lemma round_div_spec a b : 0 < b -> let z := round_div a b in 2 * Z.abs (z * b - a) <= b /\ (2 * Z.abs (z * b - a) = b -> Z.even z = true).
Proof.
  intros B. unfold round_div. pose proof (Z.div_mod a b ltac:(lia)) as D. pose proof (Z.mod_pos_bound a b B) as M. set (q := a / b) in *. set (r := a mod b) in *.
  destruct (2 * r <? b) eqn:E1; [apply Z.ltb_lt in E1; cbv zeta; split; [nia|nia]|]. apply Z.ltb_ge in E1.
  destruct (b <? 2 * r) eqn:E2; [apply Z.ltb_lt in E2; cbv zeta; split; nia|]. apply Z.ltb_ge in E2.
  destruct (Z.even q) eqn:E3; cbv zeta; (split; [nia|]); [auto|]. intros _. rewrite Z.add_1_r, Z.even_succ, <- Z.negb_even, E3. reflexivity.
Qed.
Lemma millionths_spec q : let z := millionths q in let n := Qnum q * 10 ^ 6 in let d := Zpos (Qden q) in
  2 * Z.abs (z * d - n) <= d /\ (2 * Z.abs (z * d - n) = d -> Z.even z = true).
Proof.
  unfold millionths. set (n := Qnum q * 10 ^ 6). set (d := Zpos (Qden q)). assert (B : 0 < d) by reflexivity. clearbody n d.
  pose proof (Z.div_mod (2 * n + d) (2 * d) ltac:(lia)) as D. pose proof (Z.mod_pos_bound (2 * n + d) (2 * d) ltac:(lia)) as M. set (z := (2 * n + d) / (2 * d)) in *.
  destruct ((2 * z * d =? 2 * n + d) && Z.odd z) eqn:E; cbv zeta.
  - apply andb_true_iff in E as [E1 E2]. apply Z.eqb_eq in E1. split; [nia|]. intros _. rewrite Z.sub_1_r, Z.even_pred, E2. reflexivity.
  - split; [nia|]. intros T. assert (X : 2 * z * d = 2 * n + d) by nia. rewrite (proj2 (Z.eqb_eq _ _) X) in E. cbn [andb] in E. rewrite <- Z.negb_odd, E. reflexivity.
Qed.
Lemma nearest_unique d n y z : 0 < d -> 2 * Z.abs (y * d - n) <= d -> (2 * Z.abs (y * d - n) = d -> Z.even y = true) ->
  2 * Z.abs (z * d - n) <= d -> (2 * Z.abs (z * d - n) = d -> Z.even z = true) -> y = z.
Proof.
  intros B Y1 Y2 Z1 Z2. destruct (Z.eq_dec y z) as [|N]; [assumption|exfalso].
  assert (D : Z.abs (y - z) = 1) by nia. assert (EY : 2 * Z.abs (y * d - n) = d) by nia. assert (EZ : 2 * Z.abs (z * d - n) = d) by nia.
  apply Y2 in EY. apply Z2 in EZ. apply Z.even_spec in EY as [a ->]. apply Z.even_spec in EZ as [b ->]. lia.
Qed.
Lemma millionths_compat p q : (p == q)%Q -> millionths p = millionths q.
Proof.
  intros E. unfold Qeq in E. pose proof (millionths_spec p) as [P1 P2]. pose proof (millionths_spec q) as [Q1 Q2].
  set (y := millionths p) in *. set (z := millionths q) in *. clearbody y z. destruct p as [a b], q as [c d]. cbn [Qnum Qden] in *.
  assert (B1 : 0 < Zpos b) by reflexivity. assert (B2 : 0 < Zpos d) by reflexivity. set (b' := Zpos b) in *. set (d' := Zpos d) in *. clearbody b' d'.
  assert (S1 : forall v, v * (b' * d') - a * 10 ^ 6 * d' = (v * b' - a * 10 ^ 6) * d') by (intros; ring).
  assert (S2 : forall v, v * (b' * d') - a * 10 ^ 6 * d' = (v * d' - c * 10 ^ 6) * b') by (intros; replace (a * 10 ^ 6 * d') with (c * b' * 10 ^ 6) by (rewrite <- E; ring); ring).
  apply (nearest_unique (b' * d') (a * 10 ^ 6 * d')); [nia| | | |].
  - rewrite S1, Z.abs_mul, (Z.abs_eq d') by lia. nia.
  - rewrite S1, Z.abs_mul, (Z.abs_eq d') by lia. intros X. apply P2. nia.
  - rewrite S2, Z.abs_mul, (Z.abs_eq b') by lia. nia.
  - rewrite S2, Z.abs_mul, (Z.abs_eq b') by lia. intros X. apply Q2. nia.
Qed.
Lemma micro_millionths q : millionths q = if Qnum q <? 0 then - q_micro q else q_micro q.
Proof.
  pose proof (millionths_spec q) as [M1 M2]. unfold q_micro. pose proof (round_div_spec (Z.abs (Qnum q) * 10 ^ 6) (Zpos (Qden q)) eq_refl) as [R1 R2].
  apply (nearest_unique (Zpos (Qden q)) (Qnum q * 10 ^ 6)); [reflexivity|exact M1|exact M2| |]; destruct (Qnum q <? 0) eqn:E; (apply Z.ltb_lt in E || apply Z.ltb_ge in E).
  - rewrite <- Z.abs_opp. replace (- (- round_div (Z.abs (Qnum q) * 10 ^ 6) (Z.pos (Qden q)) * Z.pos (Qden q) - Qnum q * 10 ^ 6)) with (round_div (Z.abs (Qnum q) * 10 ^ 6) (Z.pos (Qden q)) * Z.pos (Qden q) - Z.abs (Qnum q) * 10 ^ 6) by (rewrite (Z.abs_neq (Qnum q)) by lia; ring). exact R1.
  - rewrite (Z.abs_eq (Qnum q)) in * by lia. exact R1.
  - rewrite Z.even_opp. intros X. apply R2. etransitivity; [|exact X]. f_equal. rewrite <- Z.abs_opp. f_equal. rewrite (Z.abs_neq (Qnum q)) by lia. ring.
  - rewrite (Z.abs_eq (Qnum q)) in * by lia. exact R2.
Qed.
Lemma q_micro_nonneg q : 0 <= q_micro q.
Proof. unfold q_micro. pose proof (round_div_spec (Z.abs (Qnum q) * 10 ^ 6) (Zpos (Qden q)) eq_refl) as [R1 _]. assert (0 < Zpos (Qden q)) by reflexivity. nia. Qed.
Lemma num_ftext q : num_text q = ftext (Qnum q <? 0) (q_micro q).
Proof. reflexivity. Qed.
Lemma dec_short z : 0 <= z < 10 ^ 18 -> (length (dec z) <= 18)%nat.
Proof. intros H. apply (dec_len z 18); [exact H|lia]. Qed.
Lemma num_value q : fits q -> exists o, write (mk_wf true true) o = Ok (num_text q) /\ wf_obj ps_params o /\ (inner o = 0)%nat /\ number o = Some (millionths q).
Proof.
  intros [F1 F2]. rewrite micro_millionths in F1, F2. rewrite num_ftext, micro_millionths. pose proof (q_micro_nonneg q) as U. set (u := q_micro q) in *. set (neg := Qnum q <? 0) in *.
  assert (L : Z.abs u < 10 ^ 18) by (destruct neg; lia). assert (NZ : neg = true -> u <> 0) by (intros E; assert (X : Qnum q < 0) by (apply Z.ltb_lt; exact E); specialize (F2 X); rewrite E in F2; lia). clearbody neg u. clear F1 F2.
  pose proof (Z.div_pos u (10 ^ 6) U ltac:(lia)) as D0. assert (D1 : u / 10 ^ 6 <= u) by (apply Z.div_le_upper_bound; lia).
  pose proof (Z.div_mod u (10 ^ 6) ltac:(lia)) as DM.
  destruct (ftext_spec neg u U) as [(M & E)|(j & f & Hj & M & M10 & B & E)].
  - exists (ONum (if neg then - (u / 10 ^ 6) else u / 10 ^ 6)). split; [|split; [|split; [reflexivity|]]].
    + cbn [write lead wnoinline app]. rewrite E. unfold dec_signed. destruct neg; cbn [app].
      * rewrite (proj2 (Z.ltb_lt _ _)) by (specialize (NZ eq_refl); lia). rewrite Z.opp_involutive. reflexivity.
      * rewrite (proj2 (Z.ltb_ge _ _)) by lia. reflexivity.
    + cbn [wf_obj]. unfold int64_ok. destruct neg; lia.
    + cbn [number]. f_equal. destruct neg; lia.
  - set (P := 10 ^ Z.of_nat j) in *. set (P' := 10 ^ Z.of_nat (6 - j)) in *. assert (PP : P * P' = 10 ^ 6) by (subst P P'; rewrite <- Z.pow_add_r by lia; f_equal; lia).
    assert (P0 : 0 < P) by (subst P; apply Z.pow_pos_nonneg; lia). assert (P0' : 0 < P') by (subst P'; apply Z.pow_pos_nonneg; lia).
    set (v := u / 10 ^ 6 * P + f). assert (V : 0 < v).
    { subst v. assert (f <> 0) by (intros ->; apply M10; reflexivity). nia. }
    assert (VU : v * P' = u) by (subst v; rewrite DM at 2; rewrite M, <- PP; ring).
    set (m := if neg then - v else v).
    assert (T : real_text m j = ftext neg u).
    { rewrite real_text_ftext, micro_canon by lia. fold P'. replace (Z.abs m) with v by (subst m; destruct neg; lia). rewrite VU. f_equal. subst m. destruct neg; lia. }
    assert (CN : canon_real m j).
    { split; [lia|]. assert (VM : v mod 10 <> 0).
      { assert (PJ : P = 10 * 10 ^ Z.of_nat (j - 1)) by (subst P; replace (Z.of_nat j) with (Z.succ (Z.of_nat (j - 1))) by lia; apply Z.pow_succ_r; lia).
        unfold v. rewrite PJ. replace (u / 10 ^ 6 * (10 * 10 ^ Z.of_nat (j - 1)) + f) with (f + u / 10 ^ 6 * 10 ^ Z.of_nat (j - 1) * 10) by ring. rewrite Z.mod_add by lia. exact M10. }
      subst m. destruct neg; [|exact VM]. intros X. apply VM. rewrite <- (Z.opp_involutive v). apply Z.mod_opp_l_z; [lia|exact X]. }
    exists (OReal m j). split; [|split; [|split; [reflexivity|]]].
    + cbn [write lead wnoinline app]. rewrite T. reflexivity.
    + cbn [wf_obj]. split; [exact CN|]. rewrite T, E, !app_length, fixed_digits_len. pose proof (dec_short (u / 10 ^ 6) ltac:(lia)).
      change (rbuf ps_params) with (Z.to_nat 4095). destruct neg; cbn [length]; lia.
    + cbn [number]. rewrite (proj2 (Nat.leb_le j 6)) by lia. fold P'. f_equal. subst m. destruct neg; lia.
Qed.
Lemma fits_compat p q : (p == q)%Q -> fits p -> fits q.
Proof.
  intros E [F1 F2]. rewrite (millionths_compat p q E) in *. split; [exact F1|]. intros N. apply F2. unfold Qeq in E.
  assert (0 < Zpos (Qden p)) by reflexivity. assert (0 < Zpos (Qden q)) by reflexivity. nia.
Qed.

(** ** Texts of values *)
Definition vals (os : list obj) (t : list Z) : Prop := forall k, exists ws, blank ws /\ values_text os (t ++ k) (ws ++ k).
Lemma ws32 : is_ws 32 = true. Proof. reflexivity. Qed.
Lemma vals_nil : vals [] [].
Proof. intros k. exists []. split; [constructor|constructor]. Qed.
Lemma values_blank ws os t k : blank ws -> values_text os t k -> exists ws', blank ws' /\ values_text os (ws ++ t) (ws' ++ k) /\ (os <> [] -> ws' = []).
Proof.
  intros B V. destruct V.
  - exists ws. split; [exact B|]. split; [constructor|congruence].
  - exists []. split; [constructor|]. split; [|auto]. rewrite app_assoc. cbn [app]. constructor; [apply Forall_app; auto|assumption|assumption].
Qed.
Lemma vals_cons o os t t' : (forall k, value_text o t (32 :: k)) -> vals os t' -> vals (o :: os) (t ++ [32] ++ t').
Proof.
  intros V H k. destruct (H k) as (ws & B & VS). destruct (values_blank [32] os (t' ++ k) (ws ++ k) ltac:(constructor; [reflexivity|constructor]) VS) as (ws' & B' & VS' & _).
  exists (ws' ++ ws). split; [apply Forall_app; auto|]. rewrite <- app_assoc. cbn [app] in *. rewrite <- app_assoc.
  apply (vt_cons [] o t (32 :: t' ++ k) os); [constructor|apply V|exact VS'].
Qed.
Lemma stops32 k : stops (32 :: k). Proof. left. reflexivity. Qed.
Lemma value_num q k : fits q -> stops k -> exists o, value_text o (num_text q) k /\ number o = Some (millionths q).
Proof.
  intros F S. destruct (num_value q F) as (o & W & WF & IN & N). exists o. split; [|exact N]. exists (mk_wf true true). rewrite IN.
  split; [left; reflexivity|]. split; [exact W|]. split; [exact WF|]. split; [lia|auto].
Qed.
Lemma value_int z k : - 2 ^ 63 <= z < 2 ^ 63 -> stops k -> value_text (ONum z) (dec_signed z) k.
Proof.
  intros R S. exists (mk_wf true true). split; [left; reflexivity|]. split; [reflexivity|]. split; [cbn [wf_obj]; unfold int64_ok; lia|]. split; [cbn [inner]; lia|auto].
Qed.
Lemma escape_plain n : Forall (fun c => is_regular c = true /\ is_printable c = true /\ c <> 35 /\ 0 < c < 256) n -> escape_name n = Ok n.
Proof.
  induction 1 as [|c n (R & P & H & B) _ IH]; [reflexivity|]. cbn [escape_name]. rewrite (proj2 (Z.eqb_neq c 0)) by lia. rewrite IH. cbn [bind].
  unfold name_plain. rewrite R, P, (proj2 (Z.eqb_neq c 35)) by exact H. reflexivity.
Qed.
Lemma value_name n k : plain_name n -> stops k -> value_text (OName n) (47 :: n) k.
Proof.
  intros (_ & F & L) S. pose proof (escape_plain n F) as E. exists (mk_wf true true). split; [left; reflexivity|]. split; [cbn [write]; unfold write_name; rewrite E; reflexivity|].
  split; [|split; [cbn [inner]; lia|auto]]. cbn [wf_obj]. split; [|split].
  - revert F. apply Forall_impl. intros c (_ & _ & _ & B). unfold is_byte. lia.
  - intros I. apply (proj1 (Forall_forall _ _) F) in I as (_ & _ & _ & B). lia.
  - intros t E'. rewrite E in E'. injection E' as <-. exact L.
Qed.
Lemma value_string s k : bytes_ok s -> value_text (OStr true s) (bs "<" ++ flat_map hex_byte s ++ bs ">") k.
Proof.
  intros B. exists (mk_wf true true). split; [left; reflexivity|]. split; [reflexivity|]. split; [exact B|]. split; [cbn [inner]; lia|intros []].
Qed.
Lemma value_empty k : value_text (OArr []) (bs "[]") k.
Proof. exists (mk_wf false false). split; [right; reflexivity|]. split; [reflexivity|]. split; [exact Logic.I|]. split; [cbn [inner]; lia|intros []]. Qed.
Lemma vals_nums l : Forall fits l -> exists os, vals os (nums_text l) /\ numbers os = Some (map millionths l).
Proof.
  induction 1 as [|q l F _ (os & V & N)]; [exists []; split; [exact vals_nil|reflexivity]|].
  destruct (num_value q F) as (o & W & WF & IN & NO). exists (o :: os). split; [|cbn [numbers]; rewrite NO, N; reflexivity].
  unfold nums_text. cbn [flat_map]. rewrite <- app_assoc. apply vals_cons; [|exact V]. intros k. exists (mk_wf true true). rewrite IN.
  split; [left; reflexivity|]. split; [exact W|]. split; [exact WF|]. split; [lia|intros _; apply stops32].
Qed.

(** ** Pieces of programs *)
Definition piece (is : list instr) (t : list Z) : Prop := forall is' t', program_text is' t' -> program_text (is ++ is') (t ++ t').
Lemma piece_nil : piece [] [].
Proof. intros is' t' H. exact H. Qed.
Lemma piece_app i1 t1 i2 t2 : piece i1 t1 -> piece i2 t2 -> piece (i1 ++ i2) (t1 ++ t2).
Proof. intros H1 H2 is' t' H. rewrite <- !app_assoc. apply H1, H2, H. Qed.
Lemma piece_program is t : piece is t -> program_text is t.
Proof. intros H. rewrite <- (app_nil_r is), <- (app_nil_r t). apply H. apply (pt_end []). constructor. Qed.
Lemma word_blank ws n t k : blank ws -> word_text n t k -> word_text n (ws ++ t) k.
Proof. intros B (w & -> & B' & W & S). exists (ws ++ w). rewrite <- app_assoc. split; [reflexivity|]. split; [apply Forall_app; auto|auto]. Qed.
Lemma program_blank is t ws : blank ws -> program_text is t -> program_text is (ws ++ t).
Proof.
  intros B H. inversion H; subst.
  - constructor. apply Forall_app. auto.
  - destruct (values_blank ws args t t1 B H0) as (ws' & B' & V & _). apply (pt_op args n _ (ws' ++ t1) k); [exact V|apply word_blank; assumption|assumption|assumption].
  - apply (pt_image es d data _ t1 t2 c w k); auto. apply word_blank; assumption.
Qed.
Lemma piece_op args vt n c : vals args vt -> word n -> n <> bs "BI" -> is_ws c = true -> piece [IOp args n] (vt ++ n ++ [c]).
Proof.
  intros V W NB C is' t' H. cbn [app]. rewrite <- !app_assoc. cbn [app]. destruct (V (n ++ c :: t')) as (ws & B & VT).
  apply (pt_op args n _ (ws ++ n ++ c :: t') (c :: t')); [exact VT| |exact NB|apply (program_blank is' t' [c]); [constructor; [exact C|constructor]|exact H]].
  exists ws. split; [reflexivity|]. split; [exact B|]. split; [exact W|]. left. exact C.
Qed.
Lemma word_check n : forallb is_regular n = true -> (length n <= 9)%nat -> existsb (beq n) [bs "null"; bs "true"; bs "false"] = false ->
  match n with [] => false | c :: _ => negb (existsb (Z.eqb c) (bs "+-.0123456789")) end = true -> word n.
Proof.
  intros R L X D. split; [apply Forall_forall; apply forallb_forall; exact R|]. split; [lia|]. split.
  - intros I. assert (B : existsb (beq n) [bs "null"; bs "true"; bs "false"] = true) by (apply existsb_exists; exists n; split; [exact I|apply beq_refl]). congruence.
  - destruct n as [|c r]; [discriminate|]. intros I. assert (B : existsb (Z.eqb c) (bs "+-.0123456789") = true) by (apply existsb_exists; exists c; split; [exact I|apply Z.eqb_refl]). rewrite B in D. discriminate.
Qed.
(** the operators of the painter *)
Definition op_words : list (list Z) := Eval vm_compute in
  map bs ["q"; "Q"; "cm"; "w"; "M"; "J"; "j"; "ri"; "gs"; "d"; "g"; "G"; "rg"; "RG"; "k"; "K"; "cs"; "CS"; "scn"; "SCN"; "m"; "l"; "c"; "re"; "h"; "S"; "f"; "f*"; "B";
          "B*"; "n"; "W"; "W*"; "BT"; "ET"; "Td"; "Tj"; "Tf"; "Tz"; "Tc"; "Tw"; "Tr"; "Do"; "BMC"; "EMC"]%string.
Lemma op_word n : In n op_words -> word n /\ n <> bs "BI".
Proof.
  intros I. assert (H : forallb (fun n => forallb is_regular n && (length n <=? 9)%nat && negb (existsb (beq n) [bs "null"; bs "true"; bs "false"]) &&
    match n with [] => false | c :: _ => negb (existsb (Z.eqb c) (bs "+-.0123456789")) end && negb (beq n (bs "BI"))) op_words = true) by (vm_compute; reflexivity).
  apply (proj1 (forallb_forall _ _) H) in I. apply andb_true_iff in I as [I I5]. apply andb_true_iff in I as [I I4]. apply andb_true_iff in I as [I I3]. apply andb_true_iff in I as [I1 I2].
  apply Nat.leb_le in I2. apply negb_true_iff in I3, I5. split; [apply word_check; auto|]. intros ->. rewrite beq_refl in I5. discriminate.
Qed.
Lemma piece_word args vt n c : vals args vt -> existsb (beq n) op_words = true -> is_ws c = true -> piece [IOp args n] (vt ++ n ++ [c]).
Proof.
  intros V I C. apply existsb_exists in I as (x & I & E). apply beq_eq in E. subst x. destruct (op_word n I) as [W B]. apply piece_op; auto.
Qed.
(** an operator without operands, with numbers, with a name *)
Lemma piece_bare n c : existsb (beq n) op_words = true -> is_ws c = true -> piece [IOp [] n] (n ++ [c]).
Proof. intros I C. exact (piece_word [] [] n c vals_nil I C). Qed.
Lemma piece_nums l n c : Forall fits l -> existsb (beq n) op_words = true -> is_ws c = true ->
  exists os, piece [IOp os n] (nums_text l ++ n ++ [c]) /\ numbers os = Some (map millionths l).
Proof. intros F I C. destruct (vals_nums l F) as (os & V & N). exists os. split; [apply piece_word; auto|exact N]. Qed.
Lemma vals_name v : plain_name v -> vals [OName v] (47 :: v ++ [32]).
Proof. intros P. pose proof (vals_cons (OName v) [] (47 :: v) [] (fun k => value_name v (32 :: k) P (stops32 k)) vals_nil) as H. cbn [app] in H. exact H. Qed.
