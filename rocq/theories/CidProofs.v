(** Proofs for CID fonts. *)
From Coq Require Import Lia String.
From Verif Require Import Base TokModel ChainProofs CodeModel CodeSpec CodePropLemmas CMapModel CidModel CidSpec.
Local Open Scope Z_scope.

(** ** CIDs and glyphs *)
Lemma zeros_length n : length (zeros n) = (2 * n)%nat.
Proof. induction n as [|n IH]; [reflexivity|]. cbn [zeros length]. lia. Qed.
Lemma two_ind (P : list Z -> Prop) : P [] -> (forall a, P [a]) -> (forall a b l, P l -> P (a :: b :: l)) -> forall l, P l.
Proof. intros H0 H1 H2. assert (X : forall l, P l /\ forall a, P (a :: l)) by (induction l as [|b l [IH1 IH2]]; auto). intros l. apply X. Qed.
Lemma load_map_less : forall bytes i c, c < i -> find_cid (load_map i bytes) c = None.
Proof.
  apply (two_ind (fun bytes => forall i c, c < i -> find_cid (load_map i bytes) c = None)); try reflexivity. intros a b l IH i c L. cbn [load_map find_cid].
  destruct (Z.eqb_spec i c); [lia|]. apply IH. lia.
Qed.
Lemma load_map_at : forall bytes i c before a b after, bytes = before ++ a :: b :: after -> Z.of_nat (length before) = 2 * (c - i) -> find_cid (load_map i bytes) c = Some (glyph_of a b).
Proof.
  apply (two_ind (fun bytes => forall i c before a b after, bytes = before ++ a :: b :: after -> Z.of_nat (length before) = 2 * (c - i) -> find_cid (load_map i bytes) c = Some (glyph_of a b))).
  - intros i c before a b after E. destruct before; discriminate.
  - intros x i c before a b after E. destruct before as [|y [|z before]]; discriminate.
  - intros x y l IH i c before a b after E L. cbn [load_map find_cid]. destruct before as [|p [|q before]].
    + cbn [app length] in *. injection E as -> -> ->. destruct (Z.eqb_spec i c); [reflexivity|lia].
    + cbn [length] in L. lia.
    + cbn [app length] in *. injection E as -> -> E. destruct (Z.eqb_spec i c); [lia|]. apply (IH (i + 1) c before a b after E). lia.
Qed.
Lemma load_map_none : forall bytes i c, i <= c -> Z.of_nat (length bytes) < 2 * (c - i) + 2 -> find_cid (load_map i bytes) c = None.
Proof.
  apply (two_ind (fun bytes => forall i c, i <= c -> Z.of_nat (length bytes) < 2 * (c - i) + 2 -> find_cid (load_map i bytes) c = None)); try reflexivity.
  intros a b l IH i c G L. cbn [load_map find_cid length] in *. destruct (Z.eqb_spec i c); [lia|]. apply IH; lia.
Qed.
Lemma glyph_small a b : 0 <= a < 128 -> 0 <= b < 128 -> glyph_of a b = 256 * a + b.
Proof.
  intros A B. unfold glyph_of, schar. rewrite (proj2 (Z.ltb_lt a 128)), (proj2 (Z.ltb_lt b 128)) by lia. unfold u32. rewrite !(Z.mod_small a), !(Z.mod_small b) by lia.
  rewrite Z.mod_small by (rewrite Z.shiftl_mul_pow2 by lia; lia). rewrite lor_byte by lia. lia.
Qed.
Lemma glyph_low a b : 0 <= a < 256 -> 128 <= b < 256 -> glyph_of a b = 2 ^ 32 - 256 + b.
Proof.
  intros A B. unfold glyph_of. set (y := u32 (schar a)). assert (Y : 0 <= y < 2 ^ 32) by (apply Z.mod_pos_bound; lia).
  assert (E : u32 (schar b) = (2 ^ 24 - 1) * 2 ^ 8 + b). { unfold schar. destruct (Z.ltb_spec b 128); [lia|]. unfold u32. replace (b - 256) with ((2 ^ 24 - 1) * 2 ^ 8 + b + (-1) * 2 ^ 32) by lia. rewrite Z.mod_add by lia. apply Z.mod_small. lia. }
  rewrite E. assert (X : exists s, u32 (Z.shiftl y 8) = s * 2 ^ 8 /\ 0 <= s < 2 ^ 24).
  { exists (y mod 2 ^ 24). split; [|apply Z.mod_pos_bound; lia]. rewrite Z.shiftl_mul_pow2 by lia. unfold u32. replace (2 ^ 32) with (2 ^ 24 * 2 ^ 8) by reflexivity. rewrite Z.mul_mod_distr_r by lia. reflexivity. }
  destruct X as (s & -> & S1). rewrite <- (BitLemmas.lor_add (2 ^ 24 - 1) b 8) by lia. rewrite Z.lor_assoc. rewrite <- !Z.shiftl_mul_pow2 by lia. rewrite <- Z.shiftl_lor.
  replace (Z.lor s (2 ^ 24 - 1)) with (2 ^ 24 - 1).
  - rewrite Z.shiftl_mul_pow2 by lia. rewrite BitLemmas.lor_add by lia. reflexivity.
  - replace (2 ^ 24 - 1) with (Z.ones 24) by reflexivity. symmetry. destruct (Z.eq_dec s 0) as [->|N]; [reflexivity|]. apply Z.lor_ones_low; [lia|]. apply Z.log2_lt_pow2; lia.
Qed.
Definition two (g : Z) : list Z := [g / 256 mod 256; g mod 256].
Fixpoint sorted_from (p : Z) (m : cid_map) : Prop := match m with [] => True | (c, _) :: r => p < c /\ sorted_from c r end.
Lemma export_place : forall m prev k c g, sorted_from (prev - 1) m -> nth_error m k = Some (c, g) ->
  exists before after, export_map prev m = before ++ two g ++ after /\ Z.of_nat (length before) = 2 * (c - prev + Z.of_nat k).
Proof.
  induction m as [|[x h] m IH]; intros prev k c g SF E; [destruct k; discriminate|]. cbn [sorted_from] in SF. destruct SF as [P SF]. cbn [export_map]. rewrite Z.max_r by lia. destruct k as [|k].
  - cbn in E. injection E as -> ->. exists (zeros (Z.to_nat (c - prev))), (export_map c m). split; [reflexivity|]. rewrite zeros_length. lia.
  - cbn [nth_error] in E. assert (SX : sorted_from (x - 1) m) by (destruct m as [|[z ?] m]; [exact Logic.I|]; cbn in *; split; [lia|apply SF]).
    destruct (IH x k c g SX E) as (be & af & E1 & L1). exists (zeros (Z.to_nat (x - prev)) ++ two h ++ be), af. split; [rewrite E1, <- !app_assoc; reflexivity|].
    rewrite !app_length, zeros_length. change (length (two h)) with 2%nat. lia.
Qed.
Lemma zeros_split n k : (k < n)%nat -> zeros n = zeros k ++ 0 :: 0 :: zeros (n - k - 1).
Proof. revert n. induction k as [|k IH]; intros n L; (destruct n as [|n]; [lia|]); cbn [zeros app]; [f_equal; f_equal; f_equal; lia|]. rewrite (IH n) by lia. reflexivity. Qed.
Lemma second_lost c1 g1 c2 g2 m : 0 <= c1 -> c1 < c2 -> find_cid (load_map 0 (export_map 0 ((c1, g1) :: (c2, g2) :: m))) c2 = Some 0.
Proof.
  intros P L. cbn [export_map]. rewrite Z.max_r by lia. rewrite (zeros_split (Z.to_nat (c2 - c1)) (Z.to_nat (c2 - c1 - 1))) by lia. transitivity (Some (glyph_of 0 0)); [|reflexivity].
  eapply (load_map_at _ 0 c2 (zeros (Z.to_nat (c1 - 0)) ++ two g1 ++ zeros (Z.to_nat (c2 - c1 - 1))) 0 0); [rewrite <- !app_assoc; reflexivity|].
  rewrite !app_length, !zeros_length. change (length (two g1)) with 2%nat. lia.
Qed.

(** ** Identity encodings *)
Lemma size_bound cp n : 1 <= cp -> 0 <= n -> Z.log2 cp / 8 + 1 <= n <-> cp < 256 ^ n.
Proof.
  intros P N. replace (256 ^ n) with (2 ^ (8 * n)) by (rewrite Z.pow_mul_r by lia; reflexivity). rewrite (Z.log2_lt_pow2 cp (8 * n)) by lia.
  pose proof (Z.log2_nonneg cp) as LN. set (g := Z.log2 cp) in *. pose proof (Z.div_mod g 8). pose proof (Z.mod_pos_bound g 8). lia.
Qed.
Lemma identity_code_ok n l cp : identity_limits n = Ok l -> 1 <= cp -> identity_code l cp = Ok (if cp <? 256 ^ n then Some (mk_code cp n) else None).
Proof.
  unfold identity_limits, identity_code. intros E P. destruct ((n =? 0) || (4 <? n)); [discriminate|]. destruct (n =? 4); [discriminate|]. apply ok_inj in E. subst l. cbn [l_max].
  unfold char_code_size. destruct (Z.eqb_spec cp 0); [lia|]. cbn [bind]. f_equal. destruct (Z_lt_ge_dec n 0) as [NN|NN].
  - destruct (Z.ltb_spec cp (256 ^ n)) as [H|H]; [rewrite Z.pow_neg_r in H by lia; lia|]. destruct (Z.ltb_spec n (Z.log2 cp / 8 + 1)) as [H2|H2]; [reflexivity|]. pose proof (Z.log2_nonneg cp). pose proof (Z.div_pos (Z.log2 cp) 8). lia.
  - pose proof (size_bound cp n P). destruct (Z.ltb_spec cp (256 ^ n)), (Z.ltb_spec n (Z.log2 cp / 8 + 1)); try reflexivity; lia.
Qed.
Lemma identity_limits_ok n : 1 <= n <= 3 -> identity_limits n = Ok (mk_limits n n (mk_code 0 n) (mk_code (256 ^ n) n)).
Proof. intros H. assert (C : n = 1 \/ n = 2 \/ n = 3) by lia. destruct C as [->|[->| ->]]; reflexivity. Qed.
Lemma identity_encode_ok n l : 1 <= n <= 3 -> identity_limits n = Ok l -> forall text acc, Forall (fun cp => 1 <= cp < 256 ^ n) text ->
  identity_encode l text acc = Ok (Some (acc ++ concat (map (fun x => code_bytes (fst x)) (map (fun cp => (mk_code cp n, [cp])) text)))).
Proof.
  intros N E. induction text as [|cp text IH]; intros acc F; [cbn; rewrite app_nil_r; reflexivity|]. cbn [identity_encode map concat fst].
  assert (F1 : 1 <= cp < 256 ^ n) by (inversion F; assumption). rewrite (identity_code_ok n) by (try exact E; lia). rewrite (proj2 (Z.ltb_lt cp (256 ^ n))) by lia. cbn [bind].
  unfold append_code. cbn [c_size c_num]. destruct (Z.ltb_spec 4 n); [lia|]. cbn [bind]. rewrite IH by (inversion F; assumption). rewrite <- app_assoc. reflexivity.
Qed.
Lemma identity_stops l : forall text acc, l_max l < 4 -> Forall (fun cp => 1 <= cp) text -> identity_encode l text acc = Ok None <-> exists cp, In cp text /\ identity_code l cp = Ok None.
Proof.
  induction text as [|cp text IH]; intros acc M F; [split; [discriminate|intros (x & [] & _)]|]. cbn [identity_encode].
  assert (F1 : 1 <= cp) by (inversion F; assumption). assert (F2 := Forall_inv_tail F).
  assert (C : identity_code l cp = Ok None \/ identity_code l cp = Ok (Some (mk_code cp (l_max l)))).
  { unfold identity_code, char_code_size. destruct (Z.eqb_spec cp 0); [lia|]. cbn [bind]. destruct (l_max l <? _); auto. }
  destruct C as [C|C]; rewrite C; cbn [bind].
  - split; [|reflexivity]. intros _. exists cp. split; [left; reflexivity|exact C].
  - unfold append_code. cbn [c_size]. destruct (Z.ltb_spec 4 (l_max l)); [lia|]. cbn [bind]. rewrite IH by assumption. split; intros (x & I & E).
    + exists x. split; [right; exact I|exact E].
    + destruct I as [->|I]; [rewrite C in E; discriminate|]. exists x. auto.
Qed.

(** ** Widths: what is written *)
Definition entry_text (e : entry) : list obj :=
  match e with
  | Each c ws => [ONum c; OArr ws]
  | Same a b w => [ONum a; ONum b; w]
  end.
Definition entry_at (e : entry) (cid : Z) : option obj :=
  match e with
  | Each c ws => if c <=? cid then nth_error ws (Z.to_nat (cid - c)) else None
  | Same a b w => if (a <=? cid) && (cid <=? b) then Some w else None
  end.
Definition over (e : entry) (d : obj) (cid : Z) : obj := match entry_at e cid with Some w => w | None => d end.
Definition value (es : list entry) (d : obj) (cid : Z) : obj := fold_left (fun w e => over e w cid) es d.
Lemma entry_at_gives e cid w : entry_at e cid = Some w <-> gives e cid w.
Proof.
  destruct e as [c ws|a b v]; cbn.
  - destruct (Z.leb_spec c cid); [split; [auto|intros [_ X]; exact X]|]. split; [discriminate|lia].
  - destruct (Z.leb_spec a cid), (Z.leb_spec cid b); cbn [andb]; split; try discriminate; try lia; [intros E; injection E as ->; split; [lia|reflexivity]|intros [_ ->]; reflexivity].
Qed.
Lemma value_app es fs d cid : value (es ++ fs) d cid = value fs (value es d cid) cid.
Proof. unfold value. apply fold_left_app. Qed.
Lemma value_none es d cid : (forall x v, In x es -> ~ gives x cid v) -> value es d cid = d.
Proof.
  induction es as [|e es IH]; intros H; [reflexivity|]. unfold value in *. cbn [fold_left]. unfold over at 2. destruct (entry_at e cid) as [w|] eqn:E.
  - exfalso. apply (H e w); [left; reflexivity|]. apply entry_at_gives. exact E.
  - apply IH. intros x v I. apply H. right. exact I.
Qed.
Lemma value_says es d cid : says es d cid (value es d cid).
Proof.
  induction es as [|e es IH] using rev_ind; [right; split; [intros x v []|reflexivity]|]. rewrite value_app. cbn [value fold_left]. unfold over. destruct (entry_at e cid) as [w|] eqn:E.
  - left. exists es, e, []. split; [reflexivity|]. split; [apply entry_at_gives; exact E|intros x v []].
  - assert (N : forall v, ~ gives e cid v) by (intros v G; apply entry_at_gives in G; congruence). destruct IH as [(be & x & af & E1 & G & H)|[H D]].
    + left. exists be, x, (af ++ [e]). split; [rewrite E1, <- app_assoc; reflexivity|]. split; [exact G|]. intros y v I. apply in_app_or in I. destruct I as [I|[<-|[]]]; [apply H; exact I|apply N].
    + right. split; [|exact D]. intros y v I. apply in_app_or in I. destruct I as [I|[<-|[]]]; [apply H; exact I|apply N].
Qed.
Lemma says_value es d cid w : says es d cid w -> w = value es d cid.
Proof.
  intros [(be & e & af & -> & G & H)|[H ->]].
  - rewrite value_app. cbn [value fold_left]. change (fold_left (fun w e => over e w cid) be d) with (value be d cid). apply entry_at_gives in G. unfold over at 2. rewrite G. symmetry. apply (value_none af w cid H).
  - symmetry. apply value_none. exact H.
Qed.

(** The state of the exporter: the CIDs from the start are pending, either with one width or with those in the list and the last one *)
Definition pending (x : exporter) (cid : Z) : option Z :=
  if (x_start x <=? cid) && (cid <? x_start x + x_count x)
  then match x_widths x with
       | [] => Some (x_width x)
       | _ => nth_error (x_widths x ++ [x_width x]) (Z.to_nat (cid - x_start x))
       end
  else None.
Definition state_value (es : list entry) (x : exporter) (d : obj) (cid : Z) : obj := match pending x cid with Some w => ONum w | None => value es d cid end.
Definition state_ok (es : list entry) (x : exporter) : Prop :=
  x_out x = concat (map entry_text es) /\ Forall entry_fits es /\ 0 <= x_start x /\ 1 <= x_count x /\ x_start x + x_count x < 2 ^ 32 /\ 0 <= x_width x < 2 ^ 32 /\
  (x_widths x = [] \/ Z.of_nat (length (x_widths x)) = x_count x - 1).
Definition last_entry (x : exporter) : entry :=
  if match x_widths x with [] => x_count x =? 1 | _ => true end then Each (x_start x) (map ONum (x_widths x ++ [x_width x])) else Same (x_start x) (x_start x + x_count x - 1) (ONum (x_width x)).
Lemma texts_snoc es e : concat (map entry_text (es ++ [e])) = concat (map entry_text es) ++ entry_text e.
Proof. rewrite map_app, concat_app. cbn. rewrite app_nil_r. reflexivity. Qed.
Lemma each_number ws : Forall is_number (map ONum ws).
Proof. apply Forall_forall. intros o I. apply List.in_map_iff in I. destruct I as (z & <- & _). exact Logic.I. Qed.
Lemma finish_ok es x : state_ok es x ->
  x_out (x_finish x) = concat (map entry_text (es ++ [last_entry x])) /\ x_widths (x_finish x) = [] /\ entry_fits (last_entry x) /\ forall d cid, value (es ++ [last_entry x]) d cid = state_value es x d cid.
Proof.
  intros (O & F & S0 & C1 & B & W & L). destruct x as [out ws st wi ct]. cbn [x_out x_widths x_start x_width x_count] in *. unfold x_finish, last_entry, state_value, pending. cbn [x_out x_widths x_start x_width x_count].
  rewrite texts_snoc. setoid_rewrite value_app. unfold value at 1. cbn [fold_left]. unfold over. destruct ws as [|w0 ws].
  - destruct (Z.eqb_spec ct 1) as [->|N].
    + cbn [x_array x_out x_widths app map entry_text entry_fits length]. split; [rewrite O; reflexivity|]. split; [reflexivity|]. split; [split; [lia|split; [lia|apply (each_number [wi])]]|]. intros d cid. cbn [entry_at].
      destruct (Z.leb_spec st cid); cbn [andb]; [|reflexivity]. destruct (Z.ltb_spec cid (st + 1)).
      * replace (Z.to_nat (cid - st)) with 0%nat by lia. reflexivity.
      * destruct (Z.to_nat (cid - st)) as [|k] eqn:E; [lia|]. cbn [nth_error]. destruct k; reflexivity.
    + unfold x_same. cbn [x_out x_widths x_start x_width x_count entry_text entry_fits]. unfold u32. rewrite Z.mod_small by lia. split; [rewrite O; reflexivity|]. split; [reflexivity|]. split; [repeat split; lia|]. intros d cid. cbn [entry_at].
      destruct (Z.leb_spec st cid); cbn [andb]; [|reflexivity]. destruct (Z.leb_spec cid (st + ct - 1)), (Z.ltb_spec cid (st + ct)); try lia; reflexivity.
  - destruct L as [L|L]; [discriminate|]. set (v := w0 :: ws) in *. cbn [x_array x_out x_widths entry_text entry_fits].
    assert (LV : Z.of_nat (length (map ONum (v ++ [wi]))) = ct) by (rewrite map_length, app_length; cbn [length]; lia).
    split; [rewrite O; reflexivity|]. split; [reflexivity|]. split; [split; [lia|split; [lia|apply each_number]]|]. intros d cid. cbn [entry_at].
    destruct (Z.leb_spec st cid); cbn [andb]; [|reflexivity]. rewrite nth_error_map. destruct (Z.ltb_spec cid (st + ct)).
    + destruct (nth_error (v ++ [wi]) (Z.to_nat (cid - st))); reflexivity.
    + rewrite (proj2 (nth_error_None _ _)); [reflexivity|]. rewrite map_length in LV. lia.
Qed.
Lemma same_value w d cid c : over (Each c [w]) d cid = if cid =? c then w else d.
Proof.
  unfold over, entry_at. destruct (Z.leb_spec c cid), (Z.eqb_spec cid c); try lia; try reflexivity.
  - subst. replace (Z.to_nat (c - c)) with 0%nat by lia. reflexivity.
  - destruct (Z.to_nat (cid - c)) as [|[|k]] eqn:E; try lia; reflexivity.
Qed.
Lemma update_ok es x cid w : state_ok es x -> 0 <= cid < 2 ^ 32 - 1 -> 0 <= w < 2 ^ 32 ->
  exists es', state_ok es' (x_update x cid w) /\ forall d c, state_value es' (x_update x cid w) d c = if c =? cid then ONum w else state_value es x d c.
Proof.
  intros OK CB WB. pose proof OK as (O & F & S0 & C1 & B & W & L). unfold x_update. assert (U : u32 (x_start x + x_count x) = x_start x + x_count x) by (apply Z.mod_small; lia). rewrite U. clear U. destruct (Z.eqb_spec cid (x_start x + x_count x)) as [EC|NC].
  2:{ destruct (finish_ok es x OK) as (FO & FW & FF & FV). exists (es ++ [last_entry x]). split.
      - unfold state_ok, x_reset. cbn [x_out x_widths x_start x_width x_count]. rewrite FW. repeat split; try lia; [exact FO|apply Forall_app; split; [exact F|constructor; [exact FF|constructor]]|left; reflexivity].
      - intros d c. unfold state_value at 1. unfold pending, x_reset. cbn [x_out x_widths x_start x_width x_count]. rewrite FW. destruct (Z.leb_spec cid c), (Z.ltb_spec c (cid + 1)), (Z.eqb_spec c cid); cbn [andb]; try lia; try reflexivity; apply FV. }
  assert (WD : negb (u32 (w - x_width x) =? 0) = negb (w =? x_width x)).
  { f_equal. unfold u32. destruct (Z.eqb_spec w (x_width x)) as [->|N]; [rewrite Z.sub_diag; reflexivity|]. apply Z.eqb_neq. intros E. apply Z.mod_divide in E; [|lia]. destruct E as [q E]. assert (q = 0) by nia. subst q. lia. }
  rewrite WD. clear WD. destruct x as [out ws st wi ct]. cbn [x_out x_widths x_start x_width x_count] in *. subst cid. destruct (Z.eqb_spec w wi) as [EW|NW]; cbn [negb].
  - subst wi. destruct ws as [|w0 ws].
    + exists es. unfold u32. rewrite (Z.mod_small (ct + 1)) by lia. split; [unfold state_ok; cbn [x_out x_widths x_start x_width x_count]; repeat split; try lia; try assumption; try (left; reflexivity); try (right; cbn [length]; lia)|].
      intros d c. unfold state_value, pending. cbn [x_out x_widths x_start x_width x_count]. destruct (Z.leb_spec st c), (Z.ltb_spec c (st + (ct + 1))), (Z.ltb_spec c (st + ct)), (Z.eqb_spec c (st + ct)); cbn [andb]; try lia; reflexivity.
    + destruct L as [L|L]; [discriminate|]. set (v := w0 :: ws) in *. exists (es ++ [Each st (map ONum v)]). unfold x_array. cbn [x_out x_widths x_start x_width x_count]. unfold u32. rewrite (Z.mod_small (st + (ct - 1))) by lia.
      assert (LV : Z.of_nat (length v) = ct - 1) by exact L. split.
      * unfold state_ok. cbn [x_out x_widths x_start x_width x_count]. rewrite texts_snoc. repeat split; try lia; try (left; reflexivity); [rewrite O; reflexivity|]. apply Forall_app. split; [exact F|]. constructor; [|constructor]. cbn [entry_fits]. rewrite map_length. split; [lia|]. split; [lia|apply each_number].
      * intros d c. unfold state_value, pending. cbn [x_out x_widths x_start x_width x_count]. rewrite value_app. unfold value at 1. cbn [fold_left]. unfold over, entry_at. rewrite nth_error_map. subst v. cbv iota.
        destruct (Z.leb_spec (st + (ct - 1)) c), (Z.ltb_spec c (st + (ct - 1) + 2)), (Z.eqb_spec c (st + ct)), (Z.leb_spec st c), (Z.ltb_spec c (st + ct)); cbn [andb]; try lia; try reflexivity.
        -- rewrite nth_error_app2 by lia. replace (Z.to_nat (c - st) - length (w0 :: ws))%nat with 0%nat by lia. reflexivity.
        -- rewrite (proj2 (nth_error_None _ _)) by lia. reflexivity.
        -- rewrite nth_error_app1 by lia. destruct (nth_error (w0 :: ws) (Z.to_nat (c - st))) eqn:E; [reflexivity|]. apply nth_error_None in E. lia.
  - destruct ws as [|w0 ws].
    + destruct (Z.eqb_spec ct 1) as [->|N]; cbn [negb].
      * exists es. cbn [app]. unfold u32. rewrite (Z.mod_small (1 + 1)) by lia. split; [unfold state_ok; cbn [x_out x_widths x_start x_width x_count length]; repeat split; try lia; try assumption; try (left; reflexivity); try (right; cbn [length]; lia)|].
        intros d c. unfold state_value, pending. cbn [x_out x_widths x_start x_width x_count app]. destruct (Z.leb_spec st c), (Z.ltb_spec c (st + (1 + 1))), (Z.ltb_spec c (st + 1)), (Z.eqb_spec c (st + 1)); cbn [andb]; try lia; try reflexivity.
        -- replace (Z.to_nat (c - st)) with 0%nat by lia. reflexivity.
        -- replace (Z.to_nat (c - st)) with 1%nat by lia. reflexivity.
      * destruct (finish_ok es _ OK) as (FO & FW & FF & FV). unfold last_entry in *. cbn [x_out x_widths x_start x_width x_count] in *. unfold x_finish in FO. cbn [x_out x_widths x_start x_width x_count] in FO.
        destruct (Z.eqb_spec ct 1); [lia|]. exists (es ++ [Same st (st + ct - 1) (ONum wi)]). split.
        -- unfold state_ok, x_reset. cbn [x_out x_widths x_start x_width x_count]. repeat split; try lia; [exact FO|apply Forall_app; split; [exact F|constructor; [exact FF|constructor]]|left; reflexivity].
        -- intros d c. unfold state_value at 1. unfold pending, x_reset, x_same. cbn [x_out x_widths x_start x_width x_count]. destruct (Z.leb_spec (st + ct) c), (Z.ltb_spec c (st + ct + 1)), (Z.eqb_spec c (st + ct)); cbn [andb]; try lia; try reflexivity; apply FV.
    + destruct L as [L|L]; [discriminate|]. set (v := w0 :: ws) in *. exists es. unfold u32. rewrite (Z.mod_small (ct + 1)) by lia. assert (LV : Z.of_nat (length v) = ct - 1) by exact L. split.
      * unfold state_ok. cbn [x_out x_widths x_start x_width x_count]. repeat split; try lia; try assumption. right. rewrite app_length. cbn [length]. lia.
      * intros d c. unfold state_value, pending. cbn [x_out x_widths x_start x_width x_count]. subst v. cbv iota. cbn [app].
        change (w0 :: (ws ++ [wi]) ++ [w]) with (((w0 :: ws) ++ [wi]) ++ [w]). assert (LA : Z.of_nat (length ((w0 :: ws) ++ [wi])) = ct) by (rewrite app_length; cbn [length] in *; lia). change (w0 :: ws ++ [wi]) with ((w0 :: ws) ++ [wi]).
        destruct (Z.leb_spec st c), (Z.ltb_spec c (st + (ct + 1))), (Z.ltb_spec c (st + ct)), (Z.eqb_spec c (st + ct)); cbn [andb]; try lia; try reflexivity.
        -- rewrite nth_error_app1 by lia. reflexivity.
        -- rewrite nth_error_app2 by lia. replace (Z.to_nat (c - st) - length ((w0 :: ws) ++ [wi]))%nat with 0%nat by lia. reflexivity.
Qed.
Definition map_value (m : cid_map) (wd : Z -> Z) (v : Z -> obj) (c : Z) : obj := fold_left (fun w p => if c =? fst p then ONum (wd (snd p)) else w) m (v c).
Lemma updates_ok wd : (forall g, 0 <= wd g < 2 ^ 32) -> forall m es x, state_ok es x -> Forall (fun p => 0 <= fst p < 2 ^ 32 - 1) m ->
  exists es', state_ok es' (fold_left (fun x p => x_update x (fst p) (wd (snd p))) m x) /\
  forall d c, state_value es' (fold_left (fun x p => x_update x (fst p) (wd (snd p))) m x) d c = map_value m wd (state_value es x d) c.
Proof.
  intros W. induction m as [|[cid g] m IH]; intros es x OK F; [exists es; split; [exact OK|reflexivity]|]. cbn [fold_left fst snd]. assert (F1 : 0 <= cid < 2 ^ 32 - 1) by (inversion F; assumption).
  destruct (update_ok es x cid (wd g) OK F1 (W g)) as (es1 & OK1 & V1). destruct (IH es1 _ OK1 (Forall_inv_tail F)) as (es2 & OK2 & V2). exists es2. split; [exact OK2|]. intros d c. rewrite V2. unfold map_value. cbn [fold_left fst snd]. rewrite V1. reflexivity.
Qed.
Definition expected (m : cid_map) (wd : Z -> Z) (d : obj) (cid : Z) : obj :=
  match find_cid m cid with
  | Some g => ONum (wd g)
  | None => if cid =? 0 then ONum (wd 0) else d
  end.
Lemma map_value_none m wd v c : ~ In c (map fst m) -> map_value m wd v c = v c.
Proof.
  unfold map_value. generalize (v c). induction m as [|[k g] m IH]; intros w N; [reflexivity|]. cbn [fold_left fst snd map] in *. destruct (Z.eqb_spec c k); [exfalso; apply N; left; auto|]. apply IH. intros I. apply N. right. exact I.
Qed.
Lemma map_value_find m wd v c : NoDup (map fst m) -> map_value m wd v c = match find_cid m c with Some g => ONum (wd g) | None => v c end.
Proof.
  intros N. destruct (in_dec Z.eq_dec c (map fst m)) as [I|I].
  - unfold map_value. generalize (v c). induction m as [|[k g] m IH]; [contradiction|]. intros w. cbn [fold_left fst snd map find_cid] in *. apply NoDup_cons_iff in N. destruct N as [N1 N2]. rewrite Z.eqb_sym. destruct (Z.eqb_spec k c) as [->|NE].
    + apply (map_value_none m wd (fun _ => ONum (wd g)) c N1).
    + apply IH; [exact N2|]. destruct I as [I|I]; [congruence|exact I].
  - rewrite map_value_none by exact I. assert (E : find_cid m c = None); [|rewrite E; reflexivity]. clear N. induction m as [|[k g] m IH]; [reflexivity|]. cbn [find_cid map fst] in *. destruct (Z.eqb_spec k c); [exfalso; apply I; left; assumption|]. apply IH. intros J. apply I. right. exact J.
Qed.
Lemma widths_written m wd : m <> [] -> NoDup (map fst m) -> Forall (fun p => 0 <= fst p < 2 ^ 32 - 1) m -> (forall g, 0 <= wd g < 2 ^ 32) ->
  exists es, pdf_widths m wd = concat (map entry_text es) /\ Forall entry_fits es /\ es <> [] /\ forall d c, value es d c = expected m wd d c.
Proof.
  intros NE ND F W. set (x0 := mk_exporter [] [] 0 (wd 0) 1). assert (OK0 : state_ok [] x0) by (unfold state_ok, x0; cbn; pose proof (W 0); repeat split; try lia; try constructor; auto).
  destruct (updates_ok wd W m [] x0 OK0 F) as (es & OK & V). destruct (finish_ok es _ OK) as (FO & _ & FF & FV). exists (es ++ [last_entry (fold_left (fun x p => x_update x (fst p) (wd (snd p))) m x0)]).
  split; [unfold pdf_widths; destruct m; [contradiction|]; rewrite <- FO; reflexivity|]. split; [apply Forall_app; split; [apply OK|constructor; [exact FF|constructor]]|]. split; [intros E; apply app_eq_nil in E; destruct E; discriminate|].
  intros d c. rewrite FV, V, map_value_find by exact ND. unfold expected. destruct (find_cid m c); [reflexivity|]. unfold state_value, pending, x0. cbn [x_out x_widths x_start x_width x_count].
  destruct (Z.leb_spec 0 c), (Z.ltb_spec c (0 + 1)), (Z.eqb_spec c 0); cbn [andb]; try lia; reflexivity.
Qed.

(** ** Widths: what is read *)
Lemma number_real o : is_number o -> get_real o = Ok o.
Proof. destruct o; intros []; reflexivity. Qed.
Lemma resize_ok ws n d : (forall c, nth c (resize ws n d) d = nth c ws d) /\ n <= Z.of_nat (length (resize ws n d)).
Proof.
  unfold resize. destruct (Z.ltb_spec (Z.of_nat (length ws)) n); [|split; [reflexivity|lia]]. split.
  - intros c. destruct (Nat.lt_ge_cases c (length ws)); [rewrite app_nth1 by lia; reflexivity|]. rewrite app_nth2 by lia. rewrite (nth_overflow ws) by lia. apply nth_repeat.
  - rewrite app_length, repeat_length. lia.
Qed.
Lemma set_at_length ws : forall i w, length (set_at ws i w) = length ws.
Proof. induction ws as [|x ws IH]; intros [|i] w; cbn; auto. Qed.
Lemma set_at_nth ws : forall i w c d, (i < length ws)%nat -> nth c (set_at ws i w) d = if Nat.eqb c i then w else nth c ws d.
Proof. induction ws as [|x ws IH]; intros [|i] w [|c] d L; cbn in *; try lia; try reflexivity. apply IH. lia. Qed.
Lemma put_ok d : forall vals ws i, Forall is_number vals -> 0 <= i -> i + Z.of_nat (length vals) <= Z.of_nat (length ws) -> i + Z.of_nat (length vals) < 2 ^ 32 ->
  exists ws', put_widths ws i vals = Ok ws' /\ length ws' = length ws /\ forall c, 0 <= c -> nth (Z.to_nat c) ws' d = over (Each i vals) (nth (Z.to_nat c) ws d) c.
Proof.
  induction vals as [|v vals IH]; intros ws i F P L B.
  - exists ws. split; [reflexivity|]. split; [reflexivity|]. intros c PC. unfold over, entry_at. destruct (i <=? c); [|reflexivity]. destruct (Z.to_nat (c - i)); reflexivity.
  - cbn [put_widths length] in *. rewrite number_real by (inversion F; assumption). cbn [bind]. destruct (Z.ltb_spec i (Z.of_nat (length ws))); [|lia]. unfold u32. rewrite Z.mod_small by lia.
    destruct (IH (set_at ws (Z.to_nat i) v) (i + 1) (Forall_inv_tail F)) as (ws' & E & L' & N); [lia|rewrite set_at_length; lia|lia|]. exists ws'. split; [exact E|]. split; [rewrite L'; apply set_at_length|].
    intros c PC. rewrite (N c PC). rewrite set_at_nth by lia. unfold over, entry_at. destruct (Z.leb_spec (i + 1) c), (Z.leb_spec i c); try lia.
    + replace (Z.to_nat (c - i)) with (S (Z.to_nat (c - (i + 1)))) by lia. cbn [nth_error]. destruct (Nat.eqb_spec (Z.to_nat c) (Z.to_nat i)); [lia|]. reflexivity.
    + replace c with i by lia. rewrite Nat.eqb_refl. replace (Z.to_nat (i - i)) with 0%nat by lia. reflexivity.
    + destruct (Nat.eqb_spec (Z.to_nat c) (Z.to_nat i)); [lia|]. reflexivity.
Qed.
Lemma fill_ok d ws a b w : 0 <= a -> a <= b -> b < Z.of_nat (length ws) ->
  exists ws', fill_widths ws a b w = Ok ws' /\ forall c, 0 <= c -> nth (Z.to_nat c) ws' d = over (Same a b w) (nth (Z.to_nat c) ws d) c.
Proof.
  intros P L B. unfold fill_widths. destruct (Z.ltb_spec b a); [lia|]. destruct (Z.ltb_spec b (Z.of_nat (length ws))); [|lia]. eexists. split; [reflexivity|]. intros c PC. unfold over, entry_at.
  assert (LF : length (firstn (Z.to_nat a) ws) = Z.to_nat a) by (apply firstn_length_le; lia). destruct (Z.leb_spec a c).
  - rewrite app_nth2 by lia. rewrite LF. destruct (Z.leb_spec c b); cbn [andb].
    + rewrite app_nth1 by (rewrite repeat_length; lia). rewrite (nth_indep _ d w) by (rewrite repeat_length; lia). apply nth_repeat.
    + rewrite app_nth2 by (rewrite repeat_length; lia). rewrite repeat_length. rewrite <- (firstn_skipn (Z.to_nat (b + 1)) ws) at 2. rewrite app_nth2; rewrite firstn_length_le by lia; [|lia]. f_equal. lia.
  - cbn [andb]. rewrite app_nth1 by lia. rewrite <- (firstn_skipn (Z.to_nat a) ws) at 2. rewrite app_nth1 by lia. reflexivity.
Qed.
Lemma load_ok find d : forall es txts, Forall2 (spelled find) es txts -> Forall entry_fits es -> forall fuel ws, (length es <= fuel)%nat ->
  exists ws', load_widths fuel find d (concat txts) ws = Ok ws' /\ forall c, 0 <= c -> nth (Z.to_nat c) ws' d = value es (nth (Z.to_nat c) ws d) c.
Proof.
  induction 1 as [|e t es txts SP H IH]; intros F fuel ws FU; [exists ws; split; [destruct fuel; reflexivity|reflexivity]|]. destruct fuel as [|f]; [cbn in FU; lia|]. cbn [length concat] in *.
  assert (F1 : entry_fits e) by (inversion F; assumption). assert (F2 := Forall_inv_tail F).
  assert (X : exists ws1, load_widths (S f) find d (t ++ concat txts) ws = load_widths f find d (concat txts) ws1 /\ forall c, 0 <= c -> nth (Z.to_nat c) ws1 d = over e (nth (Z.to_nat c) ws d) c).
  { assert (EACH : forall c v o, entry_fits (Each c v) -> second_of find o = Ok (OArr v) -> exists ws1, load_widths (S f) find d ([ONum c; o] ++ concat txts) ws = load_widths f find d (concat txts) ws1 /\ forall k, 0 <= k -> nth (Z.to_nat k) ws1 d = over (Each c v) (nth (Z.to_nat k) ws d) k).
    { intros c v o (P & B & FN) SE. cbn [app load_widths lenient bind]. rewrite SE. cbn [bind]. unfold u32 at 1 2 3. rewrite !(Z.mod_small c) by lia. rewrite (Z.mod_small (c + _)) by lia.
      destruct (resize_ok ws (c + Z.of_nat (length v)) d) as [RN RL]. destruct (put_ok d v (resize ws (c + Z.of_nat (length v)) d) c FN P RL B) as (ws1 & E & _ & N). rewrite E. cbn [bind]. exists ws1. split; [reflexivity|]. intros k PK. rewrite (N k PK), RN. reflexivity. }
    destruct SP as [c v|c v n g FD|a b w].
    - apply EACH; [exact F1|reflexivity].
    - apply EACH; [exact F1|exact FD].
    - destruct F1 as (P & L & B & NW). cbn [app load_widths lenient bind second_of]. rewrite (number_real w NW). cbn [bind]. unfold u32. rewrite !(Z.mod_small a), !(Z.mod_small b) by lia. rewrite (Z.mod_small (b + 1)) by lia.
      destruct (resize_ok ws (b + 1) d) as [RN RL]. destruct (fill_ok d (resize ws (b + 1) d) a b w P L) as (ws1 & E & N); [lia|]. rewrite E. cbn [bind]. exists ws1. split; [reflexivity|]. intros k PK. rewrite (N k PK), RN. reflexivity. }
  destruct X as (ws1 & E1 & N1). rewrite E1. destruct (IH F2 f ws1) as (ws2 & E2 & N2); [lia|]. exists ws2. split; [exact E2|]. intros c PC. rewrite (N2 c PC), (N1 c PC). reflexivity.
Qed.
Lemma text_spelled find es : Forall2 (spelled find) es (map entry_text es).
Proof. induction es as [|e es IH]; constructor; [destruct e; constructor|exact IH]. Qed.
Lemma spelled_length find es txts : Forall2 (spelled find) es txts -> (length es <= length (concat txts))%nat.
Proof. induction 1 as [|e t es txts SP H IH]; [cbn; lia|]. cbn [concat length]. rewrite app_length. destruct SP; cbn; lia. Qed.
Lemma load_font_ok find dw d es txts : Forall2 (spelled find) es txts -> Forall entry_fits es -> match dw with Some o => is_number o /\ d = o | None => d = ONum 1000 end ->
  exists f, load_font find (Some (concat txts)) dw = Ok f /\ forall cid, 0 <= cid -> says es d cid (glyph_width f cid).
Proof.
  intros SP F D. unfold load_font. assert (ED : match dw with Some o => get_real o | None => Ok (ONum 1000) end = Ok d) by (destruct dw; [destruct D as [D ->]; apply number_real; exact D|subst; reflexivity]).
  rewrite ED. cbn [bind]. destruct (load_ok find d es txts SP F (length (concat txts)) [] (spelled_length _ _ _ SP)) as (ws & E & N). rewrite E. cbn [bind]. eexists. split; [reflexivity|]. intros cid P.
  unfold glyph_width. cbn [fst snd]. rewrite (N cid P). replace (nth (Z.to_nat cid) [] d) with d by (destruct (Z.to_nat cid); reflexivity). apply value_says.
Qed.
Lemma round_trip find m wd dw : m <> [] -> NoDup (map fst m) -> Forall (fun p => 0 <= fst p < 2 ^ 32 - 1) m -> (forall g, 0 <= wd g < 2 ^ 32) ->
  exists f, (let (w, o) := create_widths m wd dw in load_font find w o) = Ok f /\ forall cid, 0 <= cid -> glyph_width f cid = expected m wd (if dw <? 0 then ONum 1000 else ONum dw) cid.
Proof.
  intros NE ND F W. destruct (widths_written m wd NE ND F W) as (es & ET & EF & EN & V). unfold create_widths. rewrite ET. destruct (concat (map entry_text es)) as [|o os] eqn:EC.
  { destruct es as [|[? ?|? ? ?] es]; [contradiction|discriminate|discriminate]. }
  rewrite <- EC. destruct (load_font_ok find (if dw <? 0 then None else Some (ONum dw)) (if dw <? 0 then ONum 1000 else ONum dw) es _ (text_spelled find es) EF) as (f & E & N).
  { destruct (dw <? 0); [reflexivity|split; [exact Logic.I|reflexivity]]. }
  exists f. split; [exact E|]. intros cid P. rewrite <- V. apply says_value. apply (N cid P).
Qed.

(** ** The set of CIDs *)
Lemma or_at_length s : forall i b, length (or_at s i b) = length s.
Proof. induction s as [|x s IH]; intros [|i] b; cbn; auto. Qed.
Lemma or_at_nth s : forall i b k, (i < length s)%nat -> nth k (or_at s i b) 0 = if Nat.eqb k i then Z.lor (nth k s 0) b else nth k s 0.
Proof. induction s as [|x s IH]; intros [|i] b [|k] L; cbn in *; try lia; try reflexivity. apply IH. lia. Qed.
Lemma bit_mask k j : 0 <= k < 8 -> 0 <= j < 8 -> Z.testbit (Z.shiftr 128 k) (7 - j) = (k =? j).
Proof.
  intros K J. change 128 with (2 ^ 7). rewrite Z.shiftr_spec by lia. rewrite Z.pow2_bits_eqb by lia. destruct (Z.eqb_spec 7 (7 - j + k)), (Z.eqb_spec k j); try lia; reflexivity.
Qed.
Lemma add_bit_ok s cid c : 0 <= cid -> 0 <= c -> has_bit (add_bit s cid) c = has_bit s c || (cid =? c).
Proof.
  intros P Q. unfold add_bit, has_bit. rewrite Z.shiftr_div_pow2 by lia. change 7 with (Z.ones 3) at 1. rewrite Z.land_ones by lia. change (2 ^ 3) with 8.
  set (i := Z.to_nat (cid / 8)). set (t := if (length s <? i + 1)%nat then s ++ repeat 0 (i + 1 - length s) else s).
  assert (T : (i < length t)%nat /\ forall k, nth k t 0 = nth k s 0).
  { unfold t. destruct (Nat.ltb_spec (length s) (i + 1)); [|split; [lia|reflexivity]]. rewrite app_length, repeat_length. split; [lia|]. intros k. destruct (Nat.lt_ge_cases k (length s)); [rewrite app_nth1 by lia; reflexivity|]. rewrite app_nth2 by lia. rewrite nth_repeat, nth_overflow by lia. reflexivity. }
  destruct T as [TL TN]. rewrite or_at_nth by exact TL. rewrite TN. pose proof (Z.div_mod cid 8). pose proof (Z.mod_pos_bound cid 8). pose proof (Z.div_mod c 8). pose proof (Z.mod_pos_bound c 8).
  pose proof (Z.div_pos cid 8). pose proof (Z.div_pos c 8). destruct (Nat.eqb_spec (Z.to_nat (c / 8)) i) as [E|E].
  - rewrite Z.lor_spec, bit_mask by lia. f_equal. unfold i in E. assert (c / 8 = cid / 8) by lia. destruct (Z.eqb_spec (cid mod 8) (c mod 8)), (Z.eqb_spec cid c); try lia; reflexivity.
  - destruct (Z.eqb_spec cid c) as [<-|N]; [contradiction|]. rewrite orb_false_r. reflexivity.
Qed.
Lemma cid_set_ok cids c : Forall (fun x => 0 <= x) cids -> 0 <= c -> has_bit (cid_set cids) c = true <-> In c cids.
Proof.
  intros F P. unfold cid_set. assert (X : forall s, has_bit (fold_left add_bit cids s) c = true <-> has_bit s c = true \/ In c cids); [|rewrite X; split; [intros [H|H]; [|exact H]|auto]; unfold has_bit in H; destruct (Z.to_nat (c / 8)); cbn in H; rewrite Z.testbit_0_l in H; discriminate].
  induction F as [|x cids PX F IH]; intros s; [cbn; tauto|]. cbn [fold_left In]. rewrite IH, add_bit_ok by assumption. rewrite orb_true_iff, Z.eqb_eq. tauto.
Qed.
