(** Reading a written table *)
From Coq Require Import String Lia.
From Verif Require Import Base TokModel WriteModel DateModel ListModel XrefModel XrefSpec.
From Verif Require Import TokProofs LexProofs XrefProofs.
Local Open Scope Z_scope.

Notation digits l := (Forall (fun c => is_digit c = true) l).
Lemma dec_val_zeros n l : dec_val (repeat 48 n ++ l) = dec_val l.
Proof.
  rewrite dec_val_app. replace (dec_val (repeat 48 n)) with 0; [lia|].
  induction n as [|n IH]; [easy|]. cbn [repeat]. change (48 :: repeat 48 n) with ([48] ++ repeat 48 n).
  rewrite dec_val_app, <- IH. easy.
Qed.
Lemma pad0_spec n z : (1 <= n)%nat -> 0 <= z < 10 ^ Z.of_nat n ->
  digits (pad0 n z) /\ length (pad0 n z) = n /\ dec_val (pad0 n z) = z.
Proof.
  intros N H. unfold pad0. destruct (Z.ltb_spec z 0); [lia|].
  destruct (dec_spec z ltac:(lia)) as (D1 & D2 & D3). pose proof (dec_len z n H N).
  split; [|split].
  - apply Forall_app; split; [|easy]. apply Forall_forall. intros x I. apply repeat_spec in I. subst x. easy.
  - rewrite app_length, repeat_length. lia.
  - rewrite dec_val_zeros. easy.
Qed.
Lemma digit_char c : is_digit c = true -> 48 <= c <= 57.
Proof. unfold is_digit. rewrite andb_true_iff, Z.leb_le, Z.leb_le. easy. Qed.
Lemma c_str_app l k : Forall (fun c => c <> 0) l -> c_str (l ++ k) = l ++ c_str k.
Proof.
  induction l as [|c l IH]; intros F; [easy|]. inversion F; subst. cbn. destruct (Z.eqb_spec c 0); [easy|]. rewrite IH; easy.
Qed.
Lemma scan_digits_app ds k : digits ds -> scan_digits (length ds) (ds ++ k) = (ds, k).
Proof. induction ds as [|c ds IH]; intros F; [destruct k; easy|]. inversion F; subst. cbn. rewrite H1, IH; easy. Qed.
Lemma scan_uint_digits bits ds k : digits ds -> ds <> [] -> dec_val ds < 2 ^ bits -> 0 <= dec_val ds ->
  scan_uint (length ds) bits (ds ++ k) = Some (dec_val ds, k).
Proof.
  intros F N B P. unfold scan_uint. destruct ds as [|c ds]; [easy|].
  assert (C : 48 <= c <= 57) by (inversion F; apply digit_char; easy).
  assert (S0 : skip_space ((c :: ds) ++ k) = (c :: ds) ++ k).
  { cbn. unfold c_space. destruct (Z.eqb_spec c 32); [lia|]. destruct (Z.leb_spec 9 c), (Z.leb_spec c 13); cbn; try lia; easy. }
  rewrite S0. cbn [app]. destruct (Z.eqb_spec c 45); [lia|]. destruct (Z.eqb_spec c 43); [lia|].
  change (c :: ds ++ k) with ((c :: ds) ++ k). rewrite (scan_digits_app (c :: ds) k F).
  f_equal. f_equal. apply Z.mod_small. lia.
Qed.
Lemma skip_space_one w bits l : scan_uint w bits (32 :: l) = scan_uint w bits l.
Proof. easy. Qed.
Lemma entry_text_shape e : entry_text e =
  match e with XFree n g => pad0 10 n ++ 32 :: pad0 5 g ++ [32; 102; 32; 10]
             | XUsed n g => pad0 10 n ++ 32 :: pad0 5 g ++ [32; 110; 32; 10] end.
Proof. destruct e; easy. Qed.
Lemma entry_scan magic e : fits magic e -> 0 <= magic ->
  length (entry_text e) = 20%nat /\ scan_entry magic (entry_text e) = Ok (as_read magic e) /\
  match entry_text e with c :: _ => is_digit c = true | [] => False end.
Proof.
  intros F M.
  assert (H : forall n g t, 0 <= n < 10 ^ 10 -> 0 <= g < 10 ^ 5 -> 
    digits (pad0 10 n) /\ length (pad0 10 n) = 10%nat /\ dec_val (pad0 10 n) = n /\
    digits (pad0 5 g) /\ length (pad0 5 g) = 5%nat /\ dec_val (pad0 5 g) = g /\
    (t <> 0 -> c_str (pad0 10 n ++ 32 :: pad0 5 g ++ [32; t; 32; 10]) = pad0 10 n ++ 32 :: pad0 5 g ++ [32; t; 32; 10])).
  { intros n g t Hn Hg. destruct (pad0_spec 10 n ltac:(lia) Hn) as (A1 & A2 & A3).
    destruct (pad0_spec 5 g ltac:(lia) Hg) as (B1 & B2 & B3). repeat (split; [easy|]). intros T.
    assert (NZ : forall l, digits l -> Forall (fun c => c <> 0) l).
    { intros l D. eapply Forall_impl; [|exact D]. intros c C. apply digit_char in C. lia. }
    rewrite c_str_app by auto. f_equal. cbn [c_str]. destruct (Z.eqb_spec 32 0); [lia|]. f_equal.
    rewrite c_str_app by auto. f_equal. cbn. destruct (Z.eqb_spec t 0); [lia|]. easy. }
  rewrite entry_text_shape.
  destruct e as [n g|n g]; cbn [fits] in F; cbn [as_read].
  - destruct F as [Fn Fg]. destruct (H n g 102 Fn Fg) as (A1 & A2 & A3 & B1 & B2 & B3 & C). specialize (C ltac:(lia)).
    split; [rewrite !app_length; cbn [length]; rewrite app_length; cbn [length]; lia|]. split.
    + unfold scan_entry. rewrite C. rewrite <- A2 at 1. rewrite scan_uint_digits; try easy; try (rewrite A3; lia).
      * rewrite skip_space_one. rewrite <- B2 at 1. rewrite scan_uint_digits; try easy; try (rewrite B3; lia).
        -- cbn. rewrite A3, B3. easy.
        -- destruct (pad0 5 g); easy.
      * destruct (pad0 10 n); easy.
    + destruct (pad0 10 n); [easy|]. inversion A1; easy.
  - destruct F as (Fn & Fg & FM). destruct (H n g 110 Fn Fg) as (A1 & A2 & A3 & B1 & B2 & B3 & C). specialize (C ltac:(lia)).
    split; [rewrite !app_length; cbn [length]; rewrite app_length; cbn [length]; lia|]. split.
    + unfold scan_entry. rewrite C. rewrite <- A2 at 1. rewrite scan_uint_digits; try easy; try (rewrite A3; lia).
      * rewrite skip_space_one. rewrite <- B2 at 1. rewrite scan_uint_digits; try easy; try (rewrite B3; lia).
        -- rewrite A3, B3. cbn [skip_space c_space Z.eqb Pos.eqb orb andb Z.leb Z.compare Pos.compare Pos.compare_cont].
           cbn [negb check_eol Z.eqb Pos.eqb orb andb].
           assert (E : u64 (n + magic) = n + magic) by (unfold u64; apply Z.mod_small; lia). rewrite E.
           destruct (Z.ltb_spec (2 ^ 63 - 1) (n + magic)); [lia|easy].
        -- destruct (pad0 5 g); easy.
      * destruct (pad0 10 n); easy.
    + destruct (pad0 10 n); [easy|]. inversion A1; easy.
Qed.

(** Filling the entries *)
Fixpoint fill (magic : Z) (i : Z) (l : list xent) (es : rents) : rents :=
  match l with
  | [] => es
  | e :: t => fill magic (i + 1) t
                (match nth_error es (Z.to_nat i) with
                 | Some None => set_nth (Z.to_nat i) (Some (as_read magic e)) es
                 | _ => es
                 end)
  end.
Lemma set_nth_len {A} i (x : A) l : length (set_nth i x l) = length l.
Proof. revert l; induction i as [|i IH]; intros [|y l]; cbn; auto. Qed.
Lemma nth_set_nth {A} i (x : A) l j : nth_error (set_nth i x l) j =
  if Nat.eqb i j then match nth_error l j with Some _ => Some x | None => None end else nth_error l j.
Proof.
  revert l j; induction i as [|i IH]; intros [|y l] [|j]; cbn; try easy.
  all: try (destruct (Nat.eqb i j); easy).
Qed.
Lemma fill_len magic l : forall i es, length (fill magic i l es) = length es.
Proof.
  induction l as [|e l IH]; intros i es; cbn; [easy|]. rewrite IH.
  destruct (nth_error es (Z.to_nat i)) as [[|]|]; try easy. apply set_nth_len.
Qed.
Lemma fill_look magic l : forall i es n, 0 <= i -> 0 <= n -> i + Z.of_nat (length l) <= Z.of_nat (length es) ->
  look (fill magic i l es) n =
  match look es n with
  | Some e => Some e
  | None => if i <=? n then option_map (as_read magic) (nth_error l (Z.to_nat (n - i))) else None
  end.
Proof.
  induction l as [|e l IH]; intros i es n Pi Pn L; cbn [fill].
  - destruct (look es n); [easy|]. destruct (i <=? n); [|easy]. destruct (Z.to_nat (n - i)); easy.
  - cbn [length] in L. rewrite Nat2Z.inj_succ in L.
    set (es' := match nth_error es (Z.to_nat i) with Some None => set_nth (Z.to_nat i) (Some (as_read magic e)) es | _ => es end).
    assert (LE : length es' = length es).
    { unfold es'. destruct (nth_error es (Z.to_nat i)) as [[|]|]; try easy. apply set_nth_len. }
    change (look (fill magic (i + 1) l es') n = match look es n with Some x => Some x | None => if i <=? n then option_map (as_read magic) (nth_error (e :: l) (Z.to_nat (n - i))) else None end). rewrite (IH (i + 1) es' n); [|lia|lia|rewrite LE; lia].
    assert (LK : look es' n = match look es n with Some x => Some x | None => if n =? i then Some (as_read magic e) else None end).
    { unfold look, es'. destruct (Z.eqb_spec n i) as [-> | D].
      - destruct (nth_error es (Z.to_nat i)) as [[x|]|] eqn:E.
        + rewrite E; easy.
        + rewrite nth_set_nth, Nat.eqb_refl, E. easy.
        + apply nth_error_None in E. lia.
      - assert (K : nth_error (match nth_error es (Z.to_nat i) with
                    | Some None => set_nth (Z.to_nat i) (Some (as_read magic e)) es | _ => es end) (Z.to_nat n)
                    = nth_error es (Z.to_nat n)).
        { destruct (nth_error es (Z.to_nat i)) as [[x|]|]; try easy. rewrite nth_set_nth.
          destruct (Nat.eqb_spec (Z.to_nat i) (Z.to_nat n)); [lia|easy]. }
        rewrite K. destruct (nth_error es (Z.to_nat n)) as [[x|]|]; easy. }
    rewrite LK. destruct (look es n) as [x|]; [easy|].
    destruct (Z.eqb_spec n i) as [-> | D].
    + rewrite Z.leb_refl, Z.sub_diag. easy.
    + destruct (Z.leb_spec (i + 1) n), (Z.leb_spec i n); try lia; [|easy].
      replace (Z.to_nat (n - i)) with (S (Z.to_nat (n - (i + 1)))) by lia. easy.
Qed.
Lemma read_entries_text magic l : forall i k es, 0 <= magic -> 0 <= i -> Forall (fun e => fits magic (snd e)) l ->
  i + Z.of_nat (length l) <= Z.of_nat (length es) ->
  read_entries (length l) i magic (flat_map (fun e : Z * xent => entry_text (snd e)) l ++ k) es
  = (Ok tt, k, fill magic i (map snd l) es).
Proof.
  induction l as [|[z e] l IH]; intros i k es M P F L; [easy|].
  inversion F as [|? ? F1 F2]; subst. cbn [snd] in F1. cbn [length] in L. rewrite Nat2Z.inj_succ in L.
  cbn [length read_entries flat_map map fill snd].
  destruct (entry_scan magic e F1 M) as (E1 & E2 & _).
  rewrite <- app_assoc. set (K := flat_map _ l ++ k).
  assert (T : firstn 20 (entry_text e ++ K) = entry_text e).
  { rewrite <- E1. rewrite firstn_app, Nat.sub_diag, firstn_all. cbn. apply app_nil_r. }
  assert (D : skipn 20 (entry_text e ++ K) = K).
  { rewrite <- E1. rewrite skipn_app, Nat.sub_diag, skipn_all. easy. }
  rewrite T, D, E1. cbn [Nat.ltb Nat.leb]. unfold K.
  destruct (nth_error es (Z.to_nat i)) as [[x|]|] eqn:E.
  - rewrite IH; easy || lia.
  - rewrite E2. rewrite IH; try easy; try lia. rewrite set_nth_len. lia.
  - apply nth_error_None in E. lia.
Qed.

(** The subsections *)
Definition grown (n : Z) (es : rents) : rents := es ++ repeat None (Z.to_nat n - length es).
Lemma grown_look n es m : look (grown n es) m = look es m.
Proof.
  unfold look, grown. destruct (Nat.ltb_spec (Z.to_nat m) (length es)).
  - rewrite nth_error_app1 by lia. easy.
  - rewrite nth_error_app2 by lia. destruct (nth_error (repeat None _) _) as [x|] eqn:E.
    + apply nth_error_In, repeat_spec in E. subst x.
      destruct (nth_error es (Z.to_nat m)) eqn:E2; [|easy]. assert (Z.to_nat m < length es)%nat by (apply nth_error_Some; congruence). lia.
    + destruct (nth_error es (Z.to_nat m)) eqn:E2; [|easy]. assert (Z.to_nat m < length es)%nat by (apply nth_error_Some; congruence). lia.
Qed.
Lemma grown_len n es : 0 <= n -> n <= Z.of_nat (length (grown n es)).
Proof. intros; unfold grown. rewrite app_length, repeat_length. lia. Qed.
Fixpoint fill_secs (magic : Z) (secs : list section) (es : rents) : rents :=
  match secs with
  | [] => es
  | (first, count, l) :: t => fill_secs magic t (fill magic first (map snd l) (grown (first + count) es))
  end.
Lemma fill_secs_look magic secs : forall lo es n, 0 <= lo -> well_formed lo secs -> 0 <= n ->
  match look es n with
  | Some e => look (fill_secs magic secs es) n = Some e
  | None => forall e', look (fill_secs magic secs es) n = Some e' <-> exists e, lists secs n e /\ e' = as_read magic e
  end.
Proof.
  induction secs as [|[[f c] l] secs IH]; intros lo es n P W Pn; cbn [fill_secs].
  - destruct (look es n) eqn:E; [easy|]. intros e'. split; [easy|]. intros (e & (a & b & d & [] & _) & _).
  - destruct W as (W1 & W2 & W3 & W4).
    assert (LG : f + Z.of_nat (length (map snd l)) <= Z.of_nat (length (grown (f + c) es))).
    { rewrite map_length, <- W3. apply grown_len. lia. }
    pose proof (fill_look magic (map snd l) f (grown (f + c) es) n ltac:(lia) Pn LG) as FL.
    rewrite grown_look in FL.
    specialize (IH (f + c) (fill magic f (map snd l) (grown (f + c) es)) n ltac:(lia) W4 Pn).
    destruct (look es n) as [x|] eqn:E.
    + rewrite FL in IH. exact IH.
    + destruct (Z.leb_spec f n) as [L | L].
      * destruct (nth_error (map snd l) (Z.to_nat (n - f))) as [x|] eqn:EN; cbn [option_map] in FL; rewrite FL in IH.
        -- intros e'. rewrite IH. assert (n < f + c).
           { assert (Z.to_nat (n - f) < length (map snd l))%nat by (apply nth_error_Some; congruence).
             rewrite map_length in *. lia. }
           split.
           ++ intros H1. injection H1 as <-. exists x. split; [|easy]. exists f, c, l.
              split; [left; easy|]. repeat split; easy || lia.
           ++ intros (e & (a & b & d & [I | I] & L1 & L2 & N) & ->).
              ** injection I as <- <- <-. congruence.
              ** exfalso. refine (wf_not_below (f + c) secs n e W4 _ _); [lia|]. exists a, b, d; easy.
        -- intros e'. rewrite IH. split.
           ++ intros (e & (a & b & d & I & R) & ->). exists e. split; [|easy]. exists a, b, d. split; [right; easy|easy].
           ++ intros (e & (a & b & d & [I | I] & L1 & L2 & N) & ->).
              ** injection I as <- <- <-. congruence.
              ** exists e. split; [|easy]. exists a, b, d; easy.
      * rewrite FL in IH. intros e'. rewrite IH. split.
        -- intros (e & (a & b & d & I & R) & ->). exists e. split; [|easy]. exists a, b, d. split; [right; easy|easy].
        -- intros (e & (a & b & d & [I | I] & L1 & L2 & N) & ->).
           ** injection I as <- <- <-. lia.
           ** exists e. split; [|easy]. exists a, b, d; easy.
Qed.

Lemma dec_signed_nonneg z : 0 <= z -> dec_signed z = dec z.
Proof. intros; unfold dec_signed. destruct (Z.ltb_spec z 0); [lia|easy]. Qed.
Lemma dec_tok buf z k : (10 <= buf)%nat -> 0 <= z <= 8388607 -> stops k ->
  tok buf (dec z ++ k) = Some ((TLit, dec z), k) /\ firstn buf (dec z) = dec z /\ from_chars_int (dec z) = Some z.
Proof.
  intros B H S0. destruct (dec_spec z ltac:(lia)) as (D1 & D2 & D3).
  pose proof (dec_len z 7 ltac:(lia) ltac:(lia)) as DL.
  split; [apply tok_lit; try easy; [apply dec_regular; lia|lia]|]. split; [apply firstn_all2; lia|].
  rewrite <- (dec_signed_nonneg z) by lia. apply from_chars_dec. unfold int64_ok.
  destruct (Z.leb_spec (- 2 ^ 63) z), (Z.ltb_spec z (2 ^ 63)); easy || lia.
Qed.
Lemma dec_head z : 0 <= z -> exists c t, dec z = c :: t /\ 48 <= c <= 57.
Proof.
  intros H. destruct (dec_spec z H) as (D1 & D2 & D3). destruct (dec z) as [|c t]; [easy|].
  exists c, t. split; [easy|]. inversion D1. apply digit_char; easy.
Qed.
Lemma stops_ws c k : is_ws c = true -> stops (c :: k).
Proof. intros H. left. exact H. Qed.

Lemma next_number_q buf ty t q r n : from_chars_int (firstn buf t) = Some n ->
  next_number buf (mk_tst ((ty, t) :: q) r) = (Ok n, mk_tst q r).
Proof. intros E. unfold next_number, next_token. cbn [tq tin snd]. rewrite E. easy. Qed.
Lemma next_number_in buf ty t r r' n : tok buf r = Some ((ty, t), r') -> from_chars_int t = Some n ->
  next_number buf (mk_tst [] r) = (Ok n, mk_tst [] r').
Proof. intros T E. unfold next_number, next_token. cbn [tq tin]. rewrite T. cbn [snd]. rewrite E. easy. Qed.

Lemma read_sections_text buf magic secs : forall n lo es k, (10 <= buf)%nat -> 0 <= magic -> 0 <= lo ->
  well_formed lo secs -> Forall (limits magic) secs -> (length secs < n)%nat -> stops k ->
  read_sections n buf magic (mk_tst [] (flat_map section_text secs ++ bs "trailer" ++ k)) es
  = (Ok tt, mk_tst [(TLit, bs "trailer")] k, fill_secs magic secs es).
Proof.
  induction secs as [|[[f c] l] secs IH]; intros n lo es k B M P W LM LN S0.
  - destruct n as [|n]; [cbn in LN; lia|]. cbn [flat_map app read_sections].
    assert (T : tok buf (bs "trailer" ++ k) = Some ((TLit, bs "trailer"), k)).
    { apply tok_lit; try easy; [|cbn; lia]. repeat constructor. }
    unfold next_token at 1. cbn [tq tin]. rewrite T. cbn [snd enqueue tq tin app]. rewrite beq_refl. easy.
  - destruct n as [|n]; [cbn in LN; lia|]. cbn [length] in LN.
    inversion LM as [|? ? L1 L2]; subst. cbn [limits] in L1. destruct L1 as [LF LE].
    destruct W as (W1 & W2 & W3 & W4).
    cbn [flat_map section_text fill_secs]. rewrite <- !app_assoc. cbn [read_sections].
    set (K := flat_map section_text secs ++ bs "trailer" ++ k).
    set (T1 := [32] ++ dec c ++ [10] ++ flat_map (fun e : Z * xent => entry_text (snd e)) l ++ K).
    destruct (dec_tok buf f T1 B ltac:(lia) (stops_ws 32 _ eq_refl)) as (A1 & A2 & A3).
    unfold next_token at 1. cbn [tq tin]. rewrite A1. cbn [snd enqueue tq tin app].
    destruct (dec_head f ltac:(lia)) as (c0 & t0 & DH & DC).
    assert (NB : beq (dec f) (bs "trailer") = false).
    { apply beq_neq. rewrite DH. intros X. injection X as X _. lia. }
    rewrite NB. change (enqueue (mk_tst [] T1) (TLit, dec f)) with (mk_tst [(TLit, dec f)] T1).
    rewrite (next_number_q buf TLit (dec f) [] T1 f) by (rewrite A2; easy).
    destruct (dec_tok buf c ([10] ++ flat_map (fun e : Z * xent => entry_text (snd e)) l ++ K) B ltac:(lia) (stops_ws 10 _ eq_refl)) as (C1 & C2 & C3).
    change (@nil (ttype * list Z)) with (@nil token).
    rewrite (next_number_in buf TLit (dec c) T1 ([10] ++ flat_map (fun e : Z * xent => entry_text (snd e)) l ++ K) c).
    2:{ unfold T1. change ([32] ++ dec c ++ ?x) with (32 :: dec c ++ x). rewrite tok_ws by easy. exact C1. }
    2:{ exact C3. }
    cbn [tin tq app].
    unfold read_subsection. destruct (Z.ltb_spec f 0); [lia|]. destruct (Z.ltb_spec c 0); [lia|].
    replace (int64_ok (f + c)) with true.
    2:{ symmetry. unfold int64_ok. destruct (Z.leb_spec (- 2 ^ 63) (f + c)), (Z.ltb_spec (f + c) (2 ^ 63)); easy || lia. }
    cbn [negb]. unfold enlarge. destruct (Z.ltb_spec (f + c) 0); [lia|]. destruct (Z.ltb_spec 8388607 (f + c)); [lia|].
    fold (grown (f + c) es). cbn [skip_ws]. change (is_ws 10) with true. cbv iota.
    assert (SW : skip_ws (flat_map (fun e : Z * xent => entry_text (snd e)) l ++ K) = flat_map (fun e : Z * xent => entry_text (snd e)) l ++ K).
    { destruct l as [|[z e] l]; [cbn in W3; lia|]. inversion LE as [|? ? F1 F2]; subst. cbn [snd] in F1.
      destruct (entry_scan magic e F1 M) as (_ & _ & E3). cbn [flat_map snd].
      destruct (entry_text e) as [|ch t]; [easy|]. cbn [app skip_ws].
      pose proof (regular_spec ch (digit_regular ch E3)) as [R1 _]. rewrite R1. easy. }
    rewrite SW. replace (Z.to_nat c) with (length l) by lia.
    rewrite (read_entries_text magic l f K (grown (f + c) es)); try easy; try lia.
    + apply (IH n (f + c)); easy || lia.
    + rewrite <- W3. apply grown_len; lia.
Qed.
Lemma read_sections_peek n buf magic s1 s2 es : next_token buf s1 = next_token buf s2 -> next_token buf s2 <> None ->
  read_sections (S n) buf magic s1 es = read_sections (S n) buf magic s2 es.
Proof. intros E N. cbn [read_sections]. rewrite E. destruct (next_token buf s2) as [[t s']|]; easy. Qed.
Lemma read_table_text buf magic secs es k : (10 <= buf)%nat -> 0 <= magic ->
  well_formed 0 secs -> Forall (limits magic) secs -> (length secs < 512)%nat -> stops k ->
  read_table buf magic (mk_tst [] (table_text secs ++ bs "trailer" ++ k)) es
  = Some (Ok tt, mk_tst [(TLit, bs "trailer")] k, fill_secs magic secs es).
Proof.
  intros B M W LM LN S0. unfold read_table, table_text. rewrite <- !app_assoc.
  assert (T : forall r, tok buf (bs "xref" ++ [10] ++ r) = Some ((TLit, bs "xref"), [10] ++ r)).
  { intros r. apply tok_lit; [easy|repeat constructor|left; easy|cbn; lia]. }
  unfold next_token. cbn [tq tin]. rewrite T. cbn [snd]. rewrite beq_refl.
  rewrite (read_sections_peek 511 buf magic _ (mk_tst [] (flat_map section_text secs ++ bs "trailer" ++ k))).
  - f_equal. apply (read_sections_text buf magic secs 512 0); easy || lia.
  - unfold next_token. cbn [tq tin app]. rewrite tok_ws by easy. easy.
  - unfold next_token. cbn [tq tin]. destruct secs as [|[[f c] l] secs].
    + cbn [flat_map app]. rewrite tok_lit with (t := bs "trailer"); try easy; [repeat constructor|cbn; lia].
    + cbn [flat_map section_text]. rewrite <- !app_assoc. destruct W as (W1 & W2 & W3 & W4).
      apply Forall_inv in LM. cbn in LM. 
      match goal with |- context [tok buf (dec f ++ ?r)] => destruct (dec_tok buf f r B ltac:(lia) (stops_ws 32 _ eq_refl)) as (A1 & _) end.
      rewrite A1. easy.
Qed.
