(** Lemmas for CodeProps.v: limits, encoding and decoding. *)
From Coq Require Import Lia Permutation.
From Verif Require Import Base CodeModel CodeSpec CodeProofs ChainProofs BitLemmas.
Local Open Scope Z_scope.

Lemma next_longest s ps sh text : reach s ps -> consistent ps -> is_shuffle sh -> longest ps text (snd (next_code sh s text)).
Proof.
  intros R C SH. destruct (inv_revise s ps sh SH (reach_inv s ps R)) as (I & D & _). unfold next_code. cbv zeta. cbn [snd]. pose proof (find_next_spec text (m_head (revise sh s))) as H.
  pose proof (head_spec _ ps I D C) as HS. destruct (find_next _ text) as [[c rest]|]; cbn.
  - destruct H as (p & NE & E & FA & MAX). exists p. split; [exact NE|]. split; [exact E|]. split; [specialize (HS p); rewrite FA in HS; exact HS|].
    intros c' p' rest' E' ST. specialize (HS p'). destruct (find_all (m_head (revise sh s)) p') eqn:F; [exact (MAX p' rest' _ E' F)|exfalso; exact (HS c' ST)].
  - intros c p rest E ST. specialize (HS p). rewrite (H p rest E) in HS. exact (HS c ST).
Qed.
Lemma text_exact s ps sh text : reach s ps -> consistent ps -> is_shuffle sh -> match snd (code_of_text sh s text) with Some c => stands_for ps c text | None => forall c, ~ stands_for ps c text end.
Proof. intros R C SH. destruct (inv_revise s ps sh SH (reach_inv s ps R)) as (I & D & _). exact (head_spec _ ps I D C text). Qed.
Lemma stands_nonempty s ps c p : reach s ps -> stands_for ps c p -> p <> [] /\ c_size c <> 0.
Proof. intros R ST. destruct (reach_inv s ps R) as (_ & _ & _ & _ & W). destruct (W (c, p) (stands_in _ _ _ ST)). auto. Qed.
Lemma app_len_inj (a b c d : list Z) : length a = length b -> a ++ c = b ++ d -> a = b /\ c = d.
Proof. revert b. induction a as [|x a IH]; intros [|y b] L E; cbn in *; try lia; [auto|]. injection E as -> E. destruct (IH b) as [-> ->]; auto. Qed.
Lemma longest_unique ps text r1 r2 : unique_texts ps -> longest ps text r1 -> longest ps text r2 -> r1 = r2.
Proof.
  intros U L1 L2. destruct r1 as [[c1 x1]|], r2 as [[c2 x2]|]; cbn in *; auto.
  - destruct L1 as (p1 & N1 & E1 & S1 & M1), L2 as (p2 & N2 & E2 & S2 & M2). pose proof (M1 _ _ _ E2 S2). pose proof (M2 _ _ _ E1 S1).
    destruct (app_len_inj p1 p2 x1 x2) as [-> ->]; [lia|congruence|].
    rewrite (U _ _ _ S1 S2). reflexivity.
  - destruct L1 as (p1 & N1 & E1 & S1 & M1). exfalso. exact (L2 _ _ _ E1 S1).
  - destruct L2 as (p2 & N2 & E2 & S2 & M2). exfalso. exact (L1 _ _ _ E2 S2).
Qed.

(** ** Limits *)
Lemma reach_limits s ps : reach s ps -> Forall (fun q => 1 <= c_size (fst q) <= 255) ps -> lim_ok (m_limits s) ps.
Proof.
  induction 1 as [|s ps c p s' R IH P|s ps sh text R IH SH|s ps sh text R IH SH|s ps sh cp R IH SH]; intros B.
  - split; [intros q []|]. split; [congruence|reflexivity].
  - apply Forall_app in B as [B1 B2]. assert (B3 : 1 <= c_size c <= 255) by (inversion B2; assumption). specialize (IH B1). destruct IH as (I1 & I2 & I3).
    unfold push in P. destruct p as [|x p]; [discriminate|]. destruct (Z.eqb_spec (c_size c) 0); [discriminate|]. injection P as <-. cbn [m_limits].
    destruct ps as [|q0 ps].
    + rewrite (I3 eq_refl). cbn [app default_limits l_min l_max l_first l_last c_num c_size]. unfold lim_ok. cbn [l_min l_max]. split; [intros q [<-|[]]; cbn [fst]; destruct (Z.ltb_spec (c_size c) 255), (Z.ltb_spec 0 (c_size c)); lia|].
      split; [|discriminate]. intros _. split; exists (c, x :: p); (split; [left; reflexivity|]); cbn [fst]; [destruct (Z.ltb_spec (c_size c) 255)|destruct (Z.ltb_spec 0 (c_size c))]; lia.
    + destruct (I2 ltac:(discriminate)) as [(qa & Ia & Ea) (qb & Ib & Eb)]. unfold lim_ok. cbn [l_min l_max]. split; [|split].
      * intros q I. destruct (Z.ltb_spec (c_size c) (l_min (m_limits s))), (Z.ltb_spec (l_max (m_limits s)) (c_size c)); apply in_app_or in I as [I|[<-|[]]]; cbn [fst]; try (pose proof (I1 q I)); lia.
      * intros _. split.
        -- destruct (Z.ltb_spec (c_size c) (l_min (m_limits s))); [exists (c, x :: p)|exists qa]; (split; [apply in_or_app; auto; right; left; reflexivity|auto]).
        -- destruct (Z.ltb_spec (l_max (m_limits s)) (c_size c)); [exists (c, x :: p)|exists qb]; (split; [apply in_or_app; auto; right; left; reflexivity|auto]).
      * intros E. destruct ps; discriminate.
  - cbn [next_code fst]. unfold revise. destruct (m_dirty s); cbn [m_limits]; exact (IH B).
  - cbn [code_of_text fst]. unfold revise. destruct (m_dirty s); cbn [m_limits]; exact (IH B).
  - cbn [code_of_point fst]. unfold revise. destruct (m_dirty s); cbn [m_limits]; exact (IH B).
Qed.
(** ** Bytes *)
Lemma lor_byte x b : 0 <= x -> 0 <= b < 256 -> Z.lor (Z.shiftl x 8) b = x * 256 + b.
Proof. intros X B. rewrite Z.shiftl_mul_pow2 by lia. apply (BitLemmas.lor_add x b 8); lia. Qed.
Definition is_bytes (l : list Z) : Prop := Forall (fun b => 0 <= b < 256) l.
Lemma number_bound l : is_bytes l -> 0 <= number_of l < 256 ^ Z.of_nat (length l).
Proof.
  induction 1 as [|b l B H IH]; [cbn; lia|]. cbn [number_of length]. rewrite Nat2Z.inj_succ, Z.pow_succ_r by lia. nia.
Qed.
Lemma append_bytes_ok num n : 0 <= num -> is_bytes (append_bytes num n) /\ length (append_bytes num n) = n /\ number_of (append_bytes num n) = num mod 256 ^ Z.of_nat n.
Proof.
  intros P. induction n as [|n (IH1 & IH2 & IH3)]; [repeat split; [constructor|cbn; rewrite Z.mod_1_r; reflexivity]|]. cbn [append_bytes].
  split; [constructor; [apply Z.mod_pos_bound; lia|exact IH1]|]. split; [cbn; congruence|]. cbn [number_of]. rewrite IH2, IH3. rewrite Z.shiftr_div_pow2 by lia.
  rewrite Nat2Z.inj_succ, Z.pow_succ_r by lia. replace (2 ^ (8 * Z.of_nat n)) with (256 ^ Z.of_nat n) by (rewrite Z.pow_mul_r by lia; reflexivity).
  assert (0 < 256 ^ Z.of_nat n) by (apply Z.pow_pos_nonneg; lia). rewrite (Z.mul_comm 256). rewrite Z.rem_mul_r by lia. ring.
Qed.
Lemma next_points_code look l n cps rest : forall bytes num i, is_bytes bytes -> bytes <> [] -> 0 <= num -> 1 <= i -> i + Z.of_nat (length bytes) - 1 = n -> n <= 4 -> l_min l = n -> l_max l = n ->
  num < 256 ^ (i - 1) -> look (mk_code (num * 256 ^ Z.of_nat (length bytes) + number_of bytes) n) = Some cps -> next_points look l (bytes ++ rest) num i = Some (cps, rest).
Proof.
  induction bytes as [|b bytes IH]; intros num i B NE P I L N4 LM LX NB LK; [contradiction|]. cbn [app next_points length] in *.
  assert (B0 : 0 <= b < 256) by (inversion B; assumption). assert (B' : is_bytes bytes) by (inversion B; assumption). rewrite (proj2 (Z.ltb_ge (l_max l) i)) by lia.
  assert (256 ^ (i - 1) <= 256 ^ 3) by (apply Z.pow_le_mono_r; lia).
  rewrite Z.mod_small by (rewrite Z.shiftl_mul_pow2 by lia; change (2 ^ 8) with 256; change (256 ^ 3) with 16777216 in *; lia). rewrite lor_byte by lia.
  destruct bytes as [|b2 bytes].
  - assert (i = n) by (cbn in L; lia). subst i. rewrite LM, Z.ltb_irrefl. cbn in LK. replace (num * 256 + b) with (num * 256 + (b * 1 + 0)) by ring. rewrite LK. reflexivity.
  - rewrite (proj2 (Z.ltb_lt i (l_min l))) by (cbn [length] in L; lia). rewrite Z.mod_small by (cbn [length] in L; lia). apply IH; auto; try discriminate; try lia.
    + replace (256 ^ (i + 1 - 1)) with (256 * 256 ^ (i - 1)) by (rewrite <- Z.pow_succ_r by lia; f_equal; lia). lia.
    + rewrite <- LK. do 2 f_equal. cbn [number_of]. cbn [length]. rewrite !Nat2Z.inj_succ, !Z.pow_succ_r by lia. ring.
Qed.
(** ** Encoding and decoding *)
Lemma look_stands s ps c p : inv s ps -> stands_for ps c p -> code_points s c = Some p.
Proof.
  intros (O & G & F & D & W) ST. pose proof (F c) as Fc. unfold code_points. destruct (find_code (m_map s) c) as [[k q]|]; [|exfalso; exact (Fc p ST)]. cbn. f_equal. destruct Fc as (k' & E & ST' & _).
  clear -E ST ST'. revert E ST ST'. induction ps as [|[d w] ps IH] using rev_ind; intros E A B; [destruct A as (x & y & E1 & _); destruct x; discriminate|].
  apply stands_push in A as [[-> ->]|[NA A]], B as [[-> ->]|[NB B]]; try congruence. exact (IH E A B).
Qed.
Lemma look_iff s ps c p : inv s ps -> (code_points s c = Some p <-> exists k, c_num k = c_num c /\ stands_for ps k p).
Proof.
  intros I. split.
  - destruct I as (O & G & F & D & W). unfold code_points. intros E. pose proof (F c) as Fc. destruct (find_code (m_map s) c) as [[k q]|]; [|discriminate]. cbn in E. injection E as <-. destruct Fc as (k' & E & ST & _). eauto.
  - intros (k & E & ST). unfold code_points. rewrite (find_num _ c k) by congruence. exact (look_stands s ps k p I ST).
Qed.
Definition code_bytes (c : code) : list Z := append_bytes (c_num c) (Z.to_nat (c_size c)).
Lemma encode_reach fuel : forall sh s ps text acc s' out, (forall k, is_shuffle (sh k)) -> reach s ps -> encode fuel sh s text acc = Ok (s', out) -> reach s' ps.
Proof.
  induction fuel as [|f IH]; intros sh s ps text acc s' out SH R E; destruct text as [|t text]; cbn [encode] in E; try (injection E as <- _; exact R); [discriminate|].
  destruct (next_code (sh f) s (t :: text)) as [s1 r] eqn:N. assert (R1 : reach s1 ps) by (replace s1 with (fst (next_code (sh f) s (t :: text))) by (rewrite N; reflexivity); apply R_next; auto).
  destruct r as [[c rest]|]; [|injection E as <- _; exact R1]. apply bind_ok in E as (a & _ & E). exact (IH _ _ _ _ _ _ _ SH R1 E).
Qed.
Lemma encode_chunks fuel : forall sh s ps text acc s' out, (forall k, is_shuffle (sh k)) -> reach s ps -> consistent ps -> encode fuel sh s text acc = Ok (s', Some out) ->
  exists cs, text = concat (map snd cs) /\ out = acc ++ concat (map (fun x => code_bytes (fst x)) cs) /\ Forall (fun x => stands_for ps (fst x) (snd x)) cs.
Proof.
  induction fuel as [|f IH]; intros sh s ps text acc s' out SH R C E; destruct text as [|t text]; cbn [encode] in E; try (injection E as _ <-; exists []; split; [reflexivity|split; [cbn; rewrite app_nil_r; reflexivity|constructor]]); [discriminate|].
  pose proof (next_longest s ps (sh f) (t :: text) R C (SH f)) as L.
  destruct (next_code (sh f) s (t :: text)) as [s1 r] eqn:N. assert (R1 : reach s1 ps) by (replace s1 with (fst (next_code (sh f) s (t :: text))) by (rewrite N; reflexivity); apply R_next; auto).
  cbn [snd] in L. destruct r as [[c rest]|]; [|discriminate]. apply bind_ok in E as (a & A & E). unfold append_code in A. destruct (4 <? c_size c); [discriminate|]. injection A as <-.
  destruct L as (p & NE & ET & ST & _). destruct (IH _ _ _ _ _ _ _ SH R1 C E) as (cs & E1 & E2 & F). exists ((c, p) :: cs). split; [cbn; rewrite ET, E1; reflexivity|]. split; [cbn; rewrite E2; unfold code_bytes; rewrite <- app_assoc; reflexivity|]. constructor; assumption.
Qed.
Lemma decode_chunks look l n : 1 <= n <= 4 -> l_min l = n -> l_max l = n -> forall cs, Forall (fun x => c_size (fst x) = n /\ 0 <= c_num (fst x) < 256 ^ n /\ look (fst x) = Some (snd x)) cs ->
  forall fuel, (length (concat (map (fun x => code_bytes (fst x)) cs)) <= fuel)%nat -> decode fuel look l (concat (map (fun x => code_bytes (fst x)) cs)) = Ok (filter kept (concat (map snd cs)), true).
Proof.
  intros N LM LX. induction cs as [|[c p] cs IH]; intros F fuel B; [destruct fuel; reflexivity|]. cbn [map concat fst snd] in *.
  assert (F1 : c_size c = n /\ 0 <= c_num c < 256 ^ n /\ look c = Some p) by (inversion F; assumption). assert (F2 := Forall_inv_tail F). destruct F1 as (SZ & NB & LK).
  destruct (append_bytes_ok (c_num c) (Z.to_nat (c_size c)) (proj1 NB)) as (AB & AL & AN). unfold code_bytes in *. rewrite app_length, AL in B.
  set (bytes := append_bytes (c_num c) (Z.to_nat (c_size c))) in *. assert (NE : bytes <> []) by (intros E; rewrite E in AL; cbn in AL; lia).
  set (rest := concat (map (fun x : code * list Z => append_bytes (c_num (fst x)) (Z.to_nat (c_size (fst x)))) cs)) in *.
  destruct fuel as [|f]; [lia|].
  assert (NP : next_points look l (bytes ++ rest) 0 1 = Some (p, rest)).
  { apply (next_points_code look l n); auto; try lia. rewrite AL, AN. cbn [Z.mul Z.add]. rewrite Z2Nat.id by lia. rewrite Z.mod_small by (rewrite SZ; exact NB). rewrite <- LK. f_equal. destruct c as [a b]. cbn in *. congruence. }
  destruct bytes as [|b bytes]; [contradiction|]. cbn [app decode]. change (b :: bytes ++ rest) with ((b :: bytes) ++ rest). rewrite NP. rewrite (IH F2) by lia. cbn [bind fst snd]. rewrite filter_app. reflexivity.
Qed.
Lemma filter_id (A : Type) (f : A -> bool) l : Forall (fun x => f x = true) l -> filter f l = l.
Proof. induction 1 as [|x l H F IH]; [reflexivity|]. cbn. rewrite H, IH. reflexivity. Qed.
Lemma round_trip s ps n sh text s' out : reach s ps -> consistent ps -> 1 <= n <= 4 -> Forall (fun q => c_size (fst q) = n /\ 0 <= c_num (fst q) < 256 ^ n) ps -> (forall k, is_shuffle (sh k)) ->
  Forall (fun cp => kept cp = true) text -> encode (length text) sh s text [] = Ok (s', Some out) -> decode (length out) (code_points s') (m_limits s') out = Ok (text, true).
Proof.
  intros R C N B SH K E. destruct (encode_chunks _ _ _ _ _ _ _ _ SH R C E) as (cs & ET & EO & F). cbn in EO. pose proof (encode_reach _ _ _ _ _ _ _ _ SH R E) as R'.
  destruct cs as [|x0 cs0]; [cbn in *; subst; reflexivity|]. set (cs := x0 :: cs0) in *.
  assert (NE : ps <> []) by (intros ->; assert (X : stands_for [] (fst x0) (snd x0)) by (inversion F; assumption); destruct X as (a & b & X & _); destruct a; discriminate).
  rewrite Forall_forall in B.
  assert (LO : lim_ok (m_limits s') ps) by (apply reach_limits; [exact R'|]; apply Forall_forall; intros q I; destruct (B q I); lia).
  destruct LO as (_ & L2 & _). destruct (L2 NE) as [(qa & Ia & Ea) (qb & Ib & Eb)]. pose proof (B qa Ia) as [Sa _]. pose proof (B qb Ib) as [Sb _].
  subst out. rewrite (decode_chunks (code_points s') (m_limits s') n N); try lia.
  - rewrite <- ET. rewrite filter_id by exact K. reflexivity.
  - apply Forall_forall. intros x I. rewrite Forall_forall in F. pose proof (F x I) as ST. destruct (B _ (stands_in _ _ _ ST)) as [S1 S2]. cbn [fst] in *. split; [exact S1|]. split; [exact S2|]. apply (look_stands s' ps); [exact (reach_inv _ _ R')|exact ST].
Qed.
(** ** Ends *)
Lemma next_points_shorter look l : forall bytes num i cps rest, next_points look l bytes num i = Some (cps, rest) -> (length rest < length bytes)%nat.
Proof.
  induction bytes as [|b bytes IH]; intros num i cps rest E; cbn [next_points] in E; [discriminate|]. destruct (l_max l <? i); [discriminate|].
  destruct (i <? l_min l); [apply IH in E; cbn; lia|]. destruct (look _) as [x|]; [injection E as _ <-; cbn; lia|apply IH in E; cbn; lia].
Qed.
Lemma fallback_shorter l : forall bytes num i, (length (snd (fallback l bytes num i)) <= length bytes)%nat.
Proof. induction bytes as [|b bytes IH]; intros num i; cbn [fallback]; [cbn; lia|]. destruct (i =? l_min l); cbn [snd length]; [lia|]. specialize (IH (Z.lor (Z.shiftl num 8 mod 4294967296) b) ((i + 1) mod 256)). lia. Qed.
Lemma decode_total look l : forall fuel bytes, (length bytes <= fuel)%nat -> exists r, decode fuel look l bytes = Ok r.
Proof.
  induction fuel as [|f IH]; intros [|b bytes] L; cbn [length] in L; try lia; cbn [decode]; eauto.
  destruct (next_points look l (b :: bytes) 0 1) as [[cps rest]|] eqn:N.
  - apply next_points_shorter in N. cbn in N. destruct (IH rest) as (r & ->); [lia|]. cbn. eauto.
  - pose proof (fallback_shorter l bytes b 1) as F. destruct (fallback l bytes b 1) as [c rest]. cbn in F. destruct (IH rest) as (r & ->); [lia|]. cbn. eauto.
Qed.
Lemma encode_total sh ps : (forall k, is_shuffle (sh k)) -> consistent ps -> Forall (fun q => c_size (fst q) <= 4) ps ->
  forall fuel s text acc, reach s ps -> (length text <= fuel)%nat -> exists r, encode fuel sh s text acc = Ok r.
Proof.
  intros SH C B. induction fuel as [|f IH]; intros s [|t text] acc R L; cbn [length] in L; try lia; cbn [encode]; eauto.
  pose proof (next_longest s ps (sh f) (t :: text) R C (SH f)) as LG. pose proof (R_next s ps (sh f) (t :: text) R (SH f)) as R1.
  destruct (next_code (sh f) s (t :: text)) as [s1 [[c rest]|]]; [|eauto]. cbn [snd fst] in *. destruct LG as (p & NE & ET & ST & _).
  assert (length rest < length (t :: text))%nat by (rewrite ET, app_length; destruct p; [contradiction|cbn; lia]). cbn [length] in *. unfold append_code.
  rewrite Forall_forall in B. pose proof (B _ (stands_in _ _ _ ST)) as S4. cbn in S4. rewrite (proj2 (Z.ltb_ge 4 (c_size c))) by lia. cbn [bind]. apply IH; [exact R1|lia].
Qed.
(** The text which is not encoded: after some texts with codes no text with a code comes *)
Lemma encode_none fuel : forall sh s ps text acc s', (forall k, is_shuffle (sh k)) -> reach s ps -> consistent ps -> encode fuel sh s text acc = Ok (s', None) ->
  exists cs rest, text = concat (map snd cs) ++ rest /\ rest <> [] /\ Forall (fun x => stands_for ps (fst x) (snd x)) cs /\ forall c p r, rest = p ++ r -> ~ stands_for ps c p.
Proof.
  induction fuel as [|f IH]; intros sh s ps text acc s' SH R C E; destruct text as [|t text]; cbn [encode] in E; try discriminate.
  pose proof (next_longest s ps (sh f) (t :: text) R C (SH f)) as LG. pose proof (R_next s ps (sh f) (t :: text) R (SH f)) as R1.
  destruct (next_code (sh f) s (t :: text)) as [s1 [[c rest]|]]; cbn [fst snd] in *.
  - destruct LG as (p & NE & ET & ST & _). apply bind_ok in E as (a & A & E). destruct (IH _ _ _ _ _ _ SH R1 C E) as (cs & r & E1 & N & F & G). exists ((c, p) :: cs), r. split; [cbn; rewrite ET, E1, app_assoc; reflexivity|]. split; [exact N|]. split; [constructor; assumption|exact G].
  - exists [], (t :: text). split; [reflexivity|]. split; [discriminate|]. split; [constructor|exact LG].
Qed.
