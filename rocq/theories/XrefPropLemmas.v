(** Lemmas behind the theorems on cross-reference tables *)
From Coq Require Import String.
From Coq Require Import Permutation.
From Verif Require Import Base ChainProofs TokModel TokProofs LexProofs WriteModel UtilModel DateModel ListModel XrefModel XrefSpec XrefProofs XrefReadProofs.
Local Open Scope Z_scope.

Lemma lists_fun secs : forall lo n e e', well_formed lo secs -> lists secs n e -> lists secs n e' -> e = e'.
Proof.
  induction secs as [|[[f c] l] secs IH]; intros lo n e e' W L L'.
  - destruct L as (? & ? & ? & [] & _).
  - destruct W as (W1 & W2 & W3 & W4).
    assert (C : forall x, lists ((f, c, l) :: secs) n x ->
              (n < f + c /\ nth_error (map snd l) (Z.to_nat (n - f)) = Some x) \/ (f + c <= n /\ lists secs n x)).
    { intros x (a & b & d & [I | I] & X1 & X2 & X3).
      - injection I as <- <- <-. left. easy.
      - right. assert (L0 : lists secs n x) by (exists a, b, d; easy). split; [|easy].
        destruct (Z.le_gt_cases (f + c) n) as [G|G]; [easy|]. exfalso. eapply wf_not_below; [exact W4|exact G|exact L0]. }
    destruct (C _ L) as [[A1 A2] | [A1 A2]], (C _ L') as [[B1 B2] | [B1 B2]]; try lia.
    + congruence.
    + eapply IH; eassumption.
Qed.
Lemma due_in adds n e : due adds n e -> In n (map (fun x => fst (fst x)) adds).
Proof.
  intros D. apply in_map_iff. destruct e as [m g | off g]; cbn [due] in D.
  - destruct D as [D _]. exists ((n, g), XFreed). easy.
  - exists ((n, g), XInUse (Some off)). easy.
Qed.

Lemma entry_shaped e : fits 0 e -> entry_shape e (entry_text e) /\ length (entry_text e) = 20%nat.
Proof.
  intros F. split; [|apply (entry_scan 0 e F); lia].
  assert (K : forall n g c, 0 <= n < 10 ^ 10 -> 0 <= g < 10 ^ 5 ->
    exists a b, pad0 10 n ++ [32] ++ pad0 5 g ++ [32; c; 32; 10] = a ++ [32] ++ b ++ [32; c; 32; 10] /\
    length a = 10%nat /\ length b = 5%nat /\ Forall (fun c => 48 <= c <= 57) (a ++ b) /\ dec_val a = n /\ dec_val b = g).
  { intros n g c N G. destruct (pad0_spec 10 n ltac:(lia) N) as (A1 & A2 & A3). destruct (pad0_spec 5 g ltac:(lia) G) as (B1 & B2 & B3).
    exists (pad0 10 n), (pad0 5 g). repeat (split; [easy|]). split; [|easy].
    apply Forall_app. split; eapply Forall_impl; try eassumption; intros x D; apply digit_char; exact D. }
  destruct e as [n g | off g]; cbn [fits] in F; unfold entry_shape; apply K; lia.
Qed.
Lemma table_lists adds (inc : bool) : addable adds -> inc = true \/ something adds ->
  exists secs, xref_sections (if inc then first_empty (add_objects adds) else add_objects adds) = Ok secs /\
    well_formed 0 secs /\
    (forall n g off, added_used adds n g off -> lists secs n (XUsed off g)) /\
    (forall n g, added_free adds n g -> exists m, lists secs n (XFree m g)) /\
    (forall n e e', lists secs n e -> lists secs n e' -> e = e') /\
    (forall n e, lists secs n e -> 0 <= n < xref_size (add_objects adds) /\
       match e with XUsed off g => added_used adds n g off | XFree _ g => added_free adds n g \/ (n = 0 /\ g = 65535) end) /\
    (forall n e, lists secs n e -> fits 0 e -> entry_shape e (entry_text e) /\ length (entry_text e) = 20%nat).
Proof.
  intros AD SO. destruct (sections_of_adds adds inc AD SO) as (secs & E & W & H1 & H0).
  destruct (size_of_adds adds AD) as (S1 & S2 & _).
  assert (POS : forall n, In n (map (fun x => fst (fst x)) adds) -> 1 <= n).
  { intros n I. apply in_map_iff in I. destruct I as (x & <- & I). destruct AD as [_ R]. rewrite Forall_forall in R. specialize (R _ I). lia. }
  assert (SZ : 0 < xref_size (add_objects adds)).
  { destruct S2 as [-> | I]; [lia|]. apply S1 in I as I'. pose proof (POS _ I). lia. }
  exists secs. split; [exact E|]. split; [exact W|]. split; [|split; [|split; [|split]]].
  - intros n g off U. apply H1; [|easy]. apply POS. apply (due_in adds n (XUsed off g)). easy.
  - intros n g F. 
    assert (exists m, next_link adds n m) as (m & M).
    { (* the lowest free number above n *)
      clear - AD.
      assert (D : (exists k g, added_free adds k g /\ n < k) \/ forall k g, added_free adds k g -> ~ n < k).
      { unfold added_free. induction adds as [|[[k g] a] adds IH]; [right; intros ? ? []|].
        assert (AD' : addable adds). { destruct AD as [N R]. cbn in N. inversion N. inversion R. split; easy. }
        destruct (IH AD') as [(k' & g' & I & L) | N].
        - left. exists k', g'. split; [right; easy|easy].
        - destruct a as [o|]; [right; intros k' g' [I | I]; [easy|apply (N _ _ I)]|].
          destruct (Z.ltb_spec n k) as [L|L]; [left; exists k, g; split; [left|]; easy|].
          right. intros k' g' [I | I]; [injection I as <- <-; lia|apply (N _ _ I)]. }
      destruct D as [D | D]; [|exists 0; right; easy].
      cut (forall b, (exists k g, added_free adds k g /\ n < k /\ k <= n + Z.of_nat b) -> exists m, next_link adds n m).
      { intros C. destruct D as (k & g & F & L). apply (C (Z.to_nat (k - n))). exists k, g. repeat split; easy || lia. }
      induction b as [|b IHb]; intros (k & g & F & L & B); [lia|].
      assert (DD : (exists k' g', added_free adds k' g' /\ n < k' /\ k' <= n + Z.of_nat b) \/
                   (forall k' g', added_free adds k' g' -> ~ (n < k' /\ k' <= n + Z.of_nat b))).
      { clear. unfold added_free. induction adds as [|[[k g] a] l IH]; [right; intros ? ? []|].
        destruct IH as [(k' & g' & I & L) | N].
        - left. exists k', g'. split; [right; easy|easy].
        - destruct a as [o|]; [right; intros k' g' [I | I]; [easy|apply (N _ _ I)]|].
          destruct (Z.ltb_spec n k) as [L|L], (Z.leb_spec k (n + Z.of_nat b)) as [L'|L'];
            try (left; exists k, g; split; [left; easy|lia]);
            right; intros k' g' [I | I]; try (injection I as <- <-; lia); apply (N _ _ I). }
      destruct DD as [DD | DD]; [apply IHb; easy|].
      exists k. left. split; [exists g; easy|]. split; [easy|]. intros k' g' F' L'. specialize (DD _ _ F'). lia. }
    exists m. apply H1; [|easy]. apply POS. apply (due_in adds n (XFree m g)). easy.
  - intros n e e' A B. eapply lists_fun; eassumption.
  - intros n e L. destruct (Z.lt_trichotomy n 0) as [N | [-> | N]].
    + exfalso. eapply wf_not_below; eassumption.
    + split; [lia|]. apply H0 in L. destruct L as (_ & m & _ & ->). right. easy.
    + apply H1 in L; [|lia]. split.
      * apply due_in in L. apply S1 in L. lia.
      * destruct e as [m g | off g]; cbn [due] in L; [left; apply L|exact L].
  - intros n e _ F. apply entry_shaped, F.
Qed.

(** Reading back what was added *)
Lemma next_link_bound adds magic n m : Forall (fits_add magic) adds -> addable adds -> next_link adds n m -> 0 <= m < 8388607.
Proof.
  intros F [_ A] [((g & I) & _) | [-> _]]; [|lia]. rewrite Forall_forall in F, A.
  specialize (F _ I). specialize (A _ I). destruct F as [F _]. cbn [fst snd] in F, A. lia.
Qed.
Lemma section_nth secs : forall lo f c l i e, well_formed lo secs -> In (f, c, l) secs -> nth_error (map snd l) i = Some e ->
  lo <= f /\ lists secs (f + Z.of_nat i) e /\ (f + c = f + Z.of_nat (length l)) /\ (i < length l)%nat.
Proof.
  induction secs as [|[[a b] d] secs IH]; intros lo f c l i e W I N; [easy|].
  destruct W as (W1 & W2 & W3 & W4). destruct I as [I | I].
  - injection I as -> -> ->. assert (i < length l)%nat.
    { rewrite <- (map_length snd l). apply nth_error_Some. congruence. }
    split; [lia|]. split; [|lia]. exists f, c, l. split; [left; easy|]. split; [lia|]. split; [lia|].
    replace (Z.to_nat (f + Z.of_nat i - f)) with i by lia. exact N.
  - destruct (IH _ _ _ _ _ _ W4 I N) as (H1 & (x & y & z & H2 & H3) & H4 & H5). split; [lia|]. split; [|easy].
    exists x, y, z. split; [right; easy|easy].
Qed.
Lemma wf_section secs : forall lo f c l, well_formed lo secs -> In (f, c, l) secs -> lo <= f /\ 0 < c /\ c = Z.of_nat (length l).
Proof.
  induction secs as [|[[a b] d] secs IH]; intros lo f c l W I; [easy|].
  destruct W as (W1 & W2 & W3 & W4). destruct I as [I | I]; [injection I as -> -> ->; easy|].
  destruct (IH _ _ _ _ W4 I) as (H1 & H2). split; [lia|easy].
Qed.
Lemma limits_of_adds magic adds inc secs : addable adds -> Forall (fits_add magic) adds -> inc = true \/ something adds -> 
  xref_sections (if inc : bool then first_empty (add_objects adds) else add_objects adds) = Ok secs ->
  Forall (limits magic) secs.
Proof.
  intros AD F SO E. destruct (sections_of_adds adds inc AD SO) as (secs' & E' & W & H1 & H0).
  rewrite E in E'. injection E' as <-.
  assert (K : forall n e, lists secs n e -> n < 8388607 /\ fits magic e).
  { intros n e L. destruct (Z.lt_trichotomy n 0) as [N | [-> | N]].
    - exfalso. eapply wf_not_below; eassumption.
    - apply H0 in L. destruct L as (_ & m & M & ->). pose proof (next_link_bound _ _ _ _ F AD M). cbn. lia.
    - apply H1 in L; [|lia]. rewrite Forall_forall in F. destruct e as [m g | off g]; cbn [due] in L.
      + destruct L as [L M]. pose proof (next_link_bound _ magic _ _ (proj2 (Forall_forall _ _) F) AD M).
        specialize (F _ L). unfold fits_add in F. cbn [fst snd] in F. cbn. lia.
      + specialize (F _ L). unfold fits_add in F. cbn [fst snd] in F. cbn. lia. }
  rewrite Forall_forall. intros [[f c] l] I. cbn [limits].
  destruct (wf_section secs 0 f c l W I) as (C1 & C2 & C3).
  split.
  - destruct (nth_error (map snd l) (length l - 1)) as [e|] eqn:N.
    + destruct (section_nth secs 0 f c l _ e W I N) as (_ & L & _). apply K in L. lia.
    + exfalso. apply nth_error_None in N. rewrite map_length in N. lia.
  - rewrite Forall_forall. intros [z e] IE. destruct (In_nth_error l (z, e) IE) as (i & N).
    apply (map_nth_error snd) in N. cbn [snd] in *. destruct (section_nth secs 0 f c l _ e W I N) as (_ & L & _).
    apply K in L. apply L.
Qed.

Lemma table_read_back magic secs es k : 0 <= magic -> well_formed 0 secs ->
  Forall (limits magic) secs -> (length secs < 512)%nat -> stops k ->
  exists es', read_table 4095 magic (mk_tst [] (table_text secs ++ bs "trailer" ++ k)) es
    = Some (Ok tt, mk_tst [(TLit, bs "trailer")] k, es') /\
    forall n, 0 <= n ->
      match look es n with
      | Some e => look es' n = Some e
      | None => forall e', look es' n = Some e' <-> exists e, lists secs n e /\ e' = as_read magic e
      end.
Proof.
  intros M W LM LN S0. exists (fill_secs magic secs es). split; [apply read_table_text; try easy; lia|].
  intros n P. apply (fill_secs_look magic secs 0 es n); easy || lia.
Qed.
Lemma adds_read_back magic adds (inc : bool) secs k : 0 <= magic -> addable adds -> Forall (fits_add magic) adds ->
  inc = true \/ something adds ->
  xref_sections (if inc then first_empty (add_objects adds) else add_objects adds) = Ok secs ->
  (length secs < 512)%nat -> stops k ->
  exists es', read_table 4095 magic (mk_tst [] (table_text secs ++ bs "trailer" ++ k)) []
    = Some (Ok tt, mk_tst [(TLit, bs "trailer")] k, es') /\
    forall n, 1 <= n -> forall e', look es' n = Some e' <-> exists e, due adds n e /\ e' = as_read magic e.
Proof.
  intros M AD F SO E LN S0. pose proof (limits_of_adds magic adds inc secs AD F SO E) as LM.
  destruct (sections_of_adds adds inc AD SO) as (secs' & E' & W & H1 & H0).
  rewrite E in E'. injection E' as <-.
  destruct (table_read_back magic secs [] k M W LM LN S0) as (es' & R & L). exists es'. split; [exact R|].
  intros n P e'. specialize (L n ltac:(lia)). replace (look [] n) with (@None rent) in L by (unfold look; destruct (Z.to_nat n); easy).
  rewrite (L e'). split; intros (e & A & B); exists e; (split; [|easy]); apply H1; easy.
Qed.

(** More than 511 subsections *)
Lemma read_sections_many buf magic secs : forall n lo es k, (10 <= buf)%nat -> 0 <= magic -> 0 <= lo ->
  well_formed lo secs -> Forall (limits magic) secs -> (n <= length secs)%nat ->
  exists s es', read_sections n buf magic (mk_tst [] (flat_map section_text secs ++ k)) es = (Err ENoEOFToken, s, es').
Proof.
  induction secs as [|[[f c] l] secs IH]; intros n lo es k B M P W LM LN.
  - destruct n; [|cbn in LN; lia]. cbn. eauto.
  - destruct n as [|n]; [cbn; eauto|]. cbn [length] in LN.
    inversion LM as [|? ? L1 L2]; subst. cbn [limits] in L1. destruct L1 as [LF LE].
    destruct W as (W1 & W2 & W3 & W4).
    cbn [flat_map section_text]. rewrite <- !app_assoc. cbn [read_sections].
    set (K := flat_map section_text secs ++ k).
    set (T1 := [32] ++ dec c ++ [10] ++ flat_map (fun e : Z * xent => entry_text (snd e)) l ++ K).
    destruct (dec_tok buf f T1 B ltac:(lia) (stops_ws 32 _ eq_refl)) as (A1 & A2 & A3).
    unfold next_token at 1. cbn [tq tin]. rewrite A1. cbn [snd enqueue tq tin app].
    destruct (dec_head f ltac:(lia)) as (c0 & t0 & DH & DC).
    assert (NB : beq (dec f) (bs "trailer") = false).
    { apply beq_neq. rewrite DH. intros X. injection X as X _. lia. }
    rewrite NB. change (enqueue (mk_tst [] T1) (TLit, dec f)) with (mk_tst [(TLit, dec f)] T1).
    rewrite (next_number_q buf TLit (dec f) [] T1 f) by (rewrite A2; easy).
    destruct (dec_tok buf c ([10] ++ flat_map (fun e : Z * xent => entry_text (snd e)) l ++ K) B ltac:(lia) (stops_ws 10 _ eq_refl)) as (C1 & C2 & C3).
    change (@nil (ttype * list Z)) with (@nil token).
    rewrite (next_number_in buf TLit (dec c) T1 ([10] ++ flat_map (fun e : Z * xent => entry_text (snd e)) l ++ K) c).
    2:{ unfold T1. change ([32] ++ dec c ++ ?x) with (32 :: dec c ++ x). rewrite tok_ws by easy. exact C1. }
    2:{ exact C3. }
    cbn [tin tq app].
    unfold read_subsection. destruct (Z.ltb_spec f 0); [lia|]. destruct (Z.ltb_spec c 0); [lia|].
    replace (int64_ok (f + c)) with true.
    2:{ symmetry. unfold int64_ok. destruct (Z.leb_spec (- 2 ^ 63) (f + c)), (Z.ltb_spec (f + c) (2 ^ 63)); easy || lia. }
    cbn [negb]. unfold enlarge. destruct (Z.ltb_spec (f + c) 0); [lia|]. destruct (Z.ltb_spec 8388607 (f + c)); [lia|].
    fold (grown (f + c) es). cbn [skip_ws]. change (is_ws 10) with true. cbv iota.
    assert (SW : skip_ws (flat_map (fun e : Z * xent => entry_text (snd e)) l ++ K) = flat_map (fun e : Z * xent => entry_text (snd e)) l ++ K).
    { destruct l as [|[z e] l]; [cbn in W3; lia|]. inversion LE as [|? ? F1 F2]; subst. cbn [snd] in F1.
      destruct (entry_scan magic e F1 M) as (_ & _ & E3). cbn [flat_map snd].
      destruct (entry_text e) as [|ch t]; [easy|]. cbn [app skip_ws].
      pose proof (regular_spec ch (digit_regular ch E3)) as [R1 _]. rewrite R1. easy. }
    rewrite SW. replace (Z.to_nat c) with (length l) by lia.
    rewrite (read_entries_text magic l f K (grown (f + c) es)); try easy; try lia.
    + apply (IH n (f + c)); easy || lia.
    + rewrite <- W3. apply grown_len; lia.
Qed.
Lemma table_too_many magic secs es k : 0 <= magic -> well_formed 0 secs -> Forall (limits magic) secs ->
  (512 <= length secs)%nat ->
  exists s es', read_table 4095 magic (mk_tst [] (table_text secs ++ k)) es = Some (Err ENoEOFToken, s, es').
Proof.
  intros M W LM LN. destruct secs as [|x secs'] eqn:ES; [cbn in LN; lia|]. rewrite <- ES in *.
  destruct (read_sections_many 4095 magic secs 512 0 es k ltac:(lia) M ltac:(lia) W LM LN) as (s & es' & E).
  exists s, es'. unfold read_table, table_text. rewrite <- !app_assoc.
  assert (T : forall r, tok 4095 (bs "xref" ++ [10] ++ r) = Some ((TLit, bs "xref"), [10] ++ r)).
  { intros r. apply tok_lit; [easy|repeat constructor|left; easy|cbn; lia]. }
  unfold next_token. cbn [tq tin]. rewrite T. cbn [snd]. rewrite beq_refl. f_equal.
  rewrite (read_sections_peek 511 4095 magic _ (mk_tst [] (flat_map section_text secs ++ k))).
  - exact E.
  - unfold next_token. cbn [tq tin app]. rewrite tok_ws by easy. easy.
  - rewrite ES in *. destruct x as [[f c] l]. cbn [flat_map section_text]. rewrite <- !app_assoc. destruct W as (W1 & W2 & W3 & W4).
    apply Forall_inv in LM. cbn in LM. unfold next_token. cbn [tq tin].
    match goal with |- context [tok 4095 (dec f ++ ?r)] => destruct (dec_tok 4095 f r ltac:(lia) ltac:(lia) (stops_ws 32 _ eq_refl)) as (A1 & _) end.
    rewrite A1. easy.
Qed.

Lemma free_chain_of_adds adds (inc : bool) secs : addable adds ->
  xref_sections (if inc then first_empty (add_objects adds) else add_objects adds) = Ok secs ->
  inc = true \/ (exists e, due adds 1 e) ->
  exists l, free_chain secs 0 l /\ ascends l /\ (forall n, In n l <-> exists g, added_free adds n g).
Proof.
  intros AD E Z1.
  assert (SO : inc = true \/ something adds).
  { destruct Z1 as [Z1 | [e Z1]]; [left; easy|right]. destruct e as [m g | off g]; cbn [due] in Z1.
    - exists 1, g. right. apply Z1.
    - exists 1, g. left. exists off. exact Z1. }
  destruct (sections_of_adds adds inc AD SO) as (secs' & E' & W & H1 & H0). rewrite E in E'. injection E' as <-.
  apply free_chain_adds; try easy.
  - intros x L. apply H0 in L. apply L.
  - destruct (asc_entries adds AD) as (e & A & P). 
    pose proof (head_free_link e 1 A) as HL. cbn [Z.sub Z.add Z.opp Z.pos_sub] in HL.
    exists (XFree (head_free e) 65535). apply H0. split; [exact Z1|]. exists (head_free e). split; [|easy].
    assert (IF : forall r, In (r, None) e <-> In (r, XFreed) adds).
    { intros r. rewrite <- (in_entries adds r None). split; intros I; eapply Permutation_in; try exact I; [easy|symmetry; easy]. }
    unfold link in HL. destruct HL as [((g & G1) & G2 & G3) | [G1 G2]].
    + left. split; [exists g; apply IF; easy|]. split; [easy|]. intros k g' K. apply (G3 k g'). apply IF; easy.
    + right. split; [easy|]. intros k g' K. apply (G2 k g'), IF; easy.
Qed.
