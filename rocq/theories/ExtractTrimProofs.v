(** Extraction of text: the lengths, and the white space around texts. *)
From Coq Require Import String QArith Lqa.
From Verif Require Import Base ChainProofs TokModel RectModel OpTables ContentsModel ExtractModel ExtractSpec ExtractProofs ExtractSimProofs ExtractGroupProofs.
Local Open Scope Z_scope.

Definition sound (s : sstr) : Prop := length (ss_raw s) = length (ss_pos s) /\ length (ss_len s) = length (ss_pos s) /\ ss_pos s <> [].
Lemma offs_length l : forall n, length (offs n l) = length l.
Proof. induction l as [|t l IH]; intro n; cbn [offs length]; [reflexivity|]. rewrite IH. reflexivity. Qed.
Lemma made_sound s codes : made s codes -> sound s.
Proof.
  intros (A & B & C & D & E). unfold sound. rewrite B, offs_length. split; [exact C|]. split; [exact D|]. intro X. destruct codes; [cbn in A; congruence|discriminate].
Qed.
(** ** Lengths *)
Lemma addresses_in strs : forall k off i j, List.In (i, j) (snd (addresses k off strs)) -> (k <= i)%nat /\ exists s, nth_error strs (i - k) = Some s /\ (j < length (ss_pos s))%nat.
Proof.
  induction strs as [|s strs IH]; intros k off i j H; cbn [addresses] in H; [destruct H|].
  destruct (addresses (S k) _ strs) as [p r] eqn:A. cbn [snd] in H. apply in_app_or in H as [H|H].
  - apply in_map_iff in H as (q & Q & H). injection Q as <- <-. apply in_seq in H. split; [lia|]. rewrite Nat.sub_diag. exists s. split; [reflexivity|lia].
  - match type of A with addresses _ ?o _ = _ => specialize (IH (S k) o i j) end. rewrite A in IH. destruct (IH H) as (L & t & N & J). split; [lia|].
    exists t. split; [|exact J]. replace (i - k)%nat with (S (i - S k)) by lia. exact N.
Qed.
Lemma addresses_ne s strs k off : ss_pos s <> [] -> snd (addresses k off (s :: strs)) <> [].
Proof.
  intro N. cbn [addresses]. destruct (addresses (S k) _ strs) as [p r]. cbn [snd]. intro X. apply app_eq_nil in X as (X & _). apply map_eq_nil in X.
  destruct (ss_pos s); [congruence|discriminate].
Qed.
Lemma length_ok e strs i j : Forall sound strs -> let adr := snd (addresses 0 0 strs) in
  0 <= i < Z.of_nat (length adr) -> 0 <= j < Z.of_nat (length adr) -> exists w, compute_length e strs adr i j = Ok w.
Proof.
  intros S adr HI HJ. unfold compute_length. replace (i <? 0) with false by (symmetry; apply Z.ltb_ge; lia). replace (j <? 0) with false by (symmetry; apply Z.ltb_ge; lia).
  rewrite (proj2 (Z.leb_gt _ _) (proj2 HI)), (proj2 (Z.leb_gt _ _) (proj2 HJ)). cbn [orb]. destruct (nth_error adr (Z.to_nat i)) as [[fs fg]|] eqn:A; [|apply nth_error_None in A; lia]. destruct (nth_error adr (Z.to_nat j)) as [[ts tg]|] eqn:B; [|apply nth_error_None in B; lia].
  apply nth_error_In in A. apply nth_error_In in B. destruct (addresses_in strs 0 0 fs fg A) as (_ & f & F & FG). destruct (addresses_in strs 0 0 ts tg B) as (_ & t & T & TG).
  rewrite Nat.sub_0_r in F, T. rewrite F, T. apply nth_error_In in F. apply nth_error_In in T. rewrite Forall_forall in S. destruct (S f F) as (_ & LF & _). destruct (S t T) as (_ & LT & _).
  replace (Nat.ltb tg (length (ss_len t))) with true by (symmetry; apply Nat.ltb_lt; lia). replace (Nat.leb fg (length (ss_len f))) with true by (symmetry; apply Nat.leb_le; lia).
  cbn [andb]. destruct (Nat.eqb fs ts); eexists; reflexivity.
Qed.
(** ** Entries without a pattern *)
Definition placed (a : args) (s : sstr) : Q * Q :=
  match a_rotation a with Some rot => if o_raw (a_opts a) then ss_at s else image rot (ss_at s) | None => ss_at s end.
Lemma chunk_entry e a l L first strs : a_pattern a = [] -> a_clip a = None -> (if o_trim (a_opts a) then trim e l else l) = L ->
  full L -> concat L = first :: strs -> Forall sound (concat L) ->
  exists w, add_entry_chunk e a l = Ok [mk_entry (text_of L) (fst (placed a first)) (snd (placed a first)) w].
Proof.
  intros PA CL LE (NE & FN) CC S. unfold add_entry_chunk. rewrite LE. clear LE. destruct L as [|[|f0 c] L]; [congruence|inversion FN; congruence|]. cbn [concat app] in CC. injection CC as -> CC.
  destruct (ss_at first) as [x y] eqn:AT. rewrite CL, PA. 
  match goal with |- context [addresses 0 0 ?Z] => pose proof (length_ok e Z) as LO; cbv zeta in LO; destruct (addresses 0 0 Z) as [pos adr] eqn:AD end. cbn [snd] in LO. cbn [bind].
  assert (AN : (0 < length adr)%nat).
  { cbn [concat app] in AD, S. inversion S as [|? ? S1 _]; subst. pose proof (addresses_ne first (c ++ concat L) 0 0 (proj2 (proj2 S1))) as N. rewrite AD in N. cbn [snd] in N.
    destruct adr; [congruence|cbn; lia]. }
  destruct (LO 0 (Z.of_nat (length adr) - 1) S) as (w & W); [lia|lia|]. rewrite W. cbn [bind]. exists w. unfold placed. change (origin (trm (ss_state first))) with (ss_at first).
  destruct (a_rotation a) as [rot|]; [destruct (o_raw (a_opts a))|]; rewrite ?AT; reflexivity.
Qed.
(** ** White space *)
Fixpoint lstrip (t : list Z) : list Z := match t with c :: r => if white c then lstrip r else t | [] => [] end.
Fixpoint rstrip (t : list Z) : list Z := match t with [] => [] | c :: t => match rstrip t with [] => if white c then [] else [c] | u => c :: u end end.
Lemma skip_count t : skipn (count_white t) t = lstrip t.
Proof. induction t as [|c t IH]; cbn [count_white lstrip]; [reflexivity|]. destruct (white c); [exact IH|reflexivity]. Qed.
Lemma lstrip_split t : exists A, t = A ++ lstrip t /\ Forall blank A.
Proof.
  induction t as [|c t (A & E & F)]; cbn [lstrip]; [exists []; split; [reflexivity|constructor]|]. destruct (white c) eqn:W; [|exists []; split; [reflexivity|constructor]].
  exists (c :: A). split; [cbn; congruence|]. constructor; [apply white_iff, W|exact F].
Qed.
Lemma lstrip_head t : lstrip t = [] \/ exists c r, lstrip t = c :: r /\ ~ blank c.
Proof. induction t as [|c t IH]; cbn [lstrip]; [left; reflexivity|]. destruct (white c) eqn:W; [exact IH|]. right. exists c, t. split; [reflexivity|apply white_false, W]. Qed.
Lemma lstrip_nil t : lstrip t = [] <-> forallb white t = true.
Proof. induction t as [|c t IH]; cbn [lstrip forallb]; [tauto|]. destruct (white c); cbn [andb]; [exact IH|split; discriminate]. Qed.
Lemma trim_end_rstrip t : forall n first, trim_end t n first = match rstrip t with [] => match first with Some k => k | None => n end | _ => (n + length (rstrip t))%nat end.
Proof.
  induction t as [|c t IH]; intros n first; cbn [trim_end rstrip]; [reflexivity|]. rewrite IH. destruct (rstrip t) as [|d u].
  - destruct (white c); [destruct first; reflexivity|cbn [length]; lia].
  - cbn [length]. lia.
Qed.
Lemma rstrip_prefix t : exists B, t = rstrip t ++ B /\ Forall blank B.
Proof.
  induction t as [|c t (B & E & F)]; cbn [rstrip]; [exists []; split; [reflexivity|constructor]|]. destruct (rstrip t) as [|d u] eqn:R.
  - cbn in E. subst B. destruct (white c) eqn:W; [exists (c :: t)|exists t]; (split; [reflexivity|]); [constructor; [apply white_iff, W|exact F]|exact F].
  - exists B. split; [|exact F]. cbn. f_equal. exact E.
Qed.
Lemma rstrip_last t : rstrip t = [] \/ exists r c, rstrip t = r ++ [c] /\ ~ blank c.
Proof.
  induction t as [|c t IH]; cbn [rstrip]; [left; reflexivity|]. destruct (rstrip t) as [|d u] eqn:R.
  - destruct (white c) eqn:W; [left; reflexivity|]. right. exists [], c. split; [reflexivity|apply white_false, W].
  - right. destruct IH as [IH|(r & x & IH & N)]; [discriminate|]. exists (c :: r), x. rewrite IH. auto.
Qed.
Lemma rstrip_nil t : rstrip t = [] <-> forallb white t = true.
Proof.
  induction t as [|c t IH]; cbn [rstrip forallb]; [tauto|]. destruct (rstrip t) as [|d u].
  - rewrite (proj1 IH eq_refl), andb_true_r. destruct (white c); split; congruence.
  - split; [discriminate|]. intro H. apply andb_true_iff in H as (_ & H). apply IH in H. discriminate.
Qed.
Lemma rstrip_firstn t : firstn (trim_end t 0 None) t = rstrip t.
Proof.
  rewrite trim_end_rstrip. destruct (rstrip_prefix t) as (B & E & _). destruct (rstrip t) as [|d u] eqn:R; [reflexivity|]. rewrite E. cbn [Nat.add].
  rewrite firstn_app, Nat.sub_diag, firstn_all. cbn [firstn]. apply app_nil_r.
Qed.
Lemma before_index pos len lim : forall i acc, fst (before pos len lim i acc) = 0%nat \/ exists k, fst (before pos len lim i acc) = (i + k)%nat /\ (k < length pos)%nat.
Proof.
  revert len. induction pos as [|p pos IH]; intros len i acc; cbn [before]; [left; reflexivity|]. destruct len as [|l len].
  - destruct (lim <=? p); [right; exists 0%nat; cbn; lia|left; reflexivity].
  - destruct (lim <=? p); [right; exists 0%nat; cbn; lia|]. destruct (IH len (S i) (acc + l)%Q) as [H|(k & H & K)]; [left; exact H|]. right. exists (S k). cbn [length]. split; [rewrite H|]; lia.
Qed.
Lemma begin_sound e s : sound s -> ss_text (trimmed_begin e s) = lstrip (ss_text s) /\ sound (trimmed_begin e s).
Proof.
  intros (A & B & C). unfold trimmed_begin.
  assert (Q : exists i st, (match count_white (ss_text s) with
                  | O => (0%nat, ss_state s)
                  | _ => let '(i, l) := before (ss_pos s) (ss_len s) (Z.of_nat (count_white (ss_text s))) 0 0%Q in
                         (i, set_trm (set_tm (ss_state s) (apply_tx (tm (ss_state s)) l)))
                  end) = (i, st) /\ (i < length (ss_pos s))%nat).
  { assert (P : (0 < length (ss_pos s))%nat) by (destruct (ss_pos s); [congruence|cbn; lia]).
    destruct (count_white (ss_text s)); [eexists; eexists; split; [reflexivity|exact P]|].
    pose proof (before_index (ss_pos s) (ss_len s) (Z.of_nat (S n)) 0 0%Q) as H. destruct (before _ _ _ _ _) as [i l]. cbn [fst] in H.
    eexists; eexists; split; [reflexivity|]. destruct H as [->|(k & -> & K)]; [exact P|exact K]. }
  destruct Q as (i & st & -> & LI). unfold sound, new_ss. cbn [ss_text ss_raw ss_len ss_pos]. split; [apply skip_count|]. rewrite !map_length, !skipn_length, A.
  split; [reflexivity|]. split; [reflexivity|]. intro X. apply (f_equal (@length Z)) in X. rewrite map_length, skipn_length in X. cbn in X. lia.
Qed.
Lemma last_below_bound pos lim : forall i k, last_below pos lim i = Some k -> (S i <= k <= i + length pos)%nat.
Proof.
  induction pos as [|p pos IH]; intros i k H; cbn [last_below] in H; [discriminate|]. destruct (last_below pos lim (S i)) as [j|] eqn:L.
  - injection H as <-. apply IH in L. cbn [length]. lia.
  - destruct (p <? lim); [|discriminate]. injection H as <-. cbn [length]. lia.
Qed.
Lemma end_sound e s : sound s -> ss_text (trimmed_end e s) = rstrip (ss_text s) /\ sound (trimmed_end e s).
Proof.
  intros (A & B & C). unfold trimmed_end. set (k := if Nat.eqb _ _ then _ else _).
  assert (P : (0 < length (ss_pos s))%nat) by (destruct (ss_pos s); [congruence|cbn; lia]).
  assert (K : (1 <= k <= length (ss_pos s))%nat).
  { subst k. destruct (Nat.eqb _ _); [lia|]. destruct (last_below _ _ _) eqn:L; [apply last_below_bound in L|]; lia. }
  unfold sound, new_ss. cbn [ss_text ss_raw ss_len ss_pos]. split; [apply rstrip_firstn|]. rewrite !map_length, !firstn_length, B.
  split; [reflexivity|]. split; [reflexivity|]. intro X. apply (f_equal (@length Z)) in X. rewrite firstn_length in X. cbn in X. lia.
Qed.
(** ** Chunks *)
Definition ctext (c : chunk) : list Z := concat (map ss_text c).
Lemma white_blank c : white_chunk c = true -> Forall blank (ctext c).
Proof.
  unfold white_chunk, ctext. induction c as [|s c IH]; cbn [forallb map concat]; [constructor|]. intro H. apply andb_true_iff in H as (H & R). apply Forall_app. split; [|apply IH, R].
  apply Forall_forall. intros z Z. apply white_iff. unfold is_white in H. rewrite forallb_forall in H. apply H, Z.
Qed.
Lemma is_white_blank s : is_white s = true -> Forall blank (ss_text s).
Proof. intro H. apply Forall_forall. intros z Z. apply white_iff. unfold is_white in H. rewrite forallb_forall in H. apply H, Z. Qed.
Lemma white_app c d : white_chunk (c ++ d) = white_chunk c && white_chunk d.
Proof. apply forallb_app. Qed.
Lemma ctext_app c d : ctext (c ++ d) = ctext c ++ ctext d.
Proof. unfold ctext. rewrite map_app, concat_app. reflexivity. Qed.
Lemma ctext_cons s d : ctext (s :: d) = ss_text s ++ ctext d.
Proof. reflexivity. Qed.
Lemma begin_chunk e c : white_chunk c = false -> Forall sound c -> exists A s r, trim_begin_chunk e c = s :: r /\ ctext c = A ++ ctext (s :: r) /\ Forall blank A /\
  Forall sound (s :: r) /\ exists z u, ss_text s = z :: u /\ ~ blank z.
Proof.
  induction c as [|s c IH]; cbn [white_chunk forallb trim_begin_chunk]; [discriminate|]. intros W S. inversion S as [|? ? S1 S2]; subst. destruct (is_white s) eqn:IW.
  - destruct (IH W S2) as (A & s' & r & T & CT & F & R). exists (ss_text s ++ A), s', r. split; [exact T|]. rewrite ctext_cons, CT, app_assoc. split; [reflexivity|].
    split; [apply Forall_app; split; [apply is_white_blank, IW|exact F]|exact R].
  - destruct (begin_sound e s S1) as (T & SS). destruct (lstrip_split (ss_text s)) as (A & E & F). exists A, (trimmed_begin e s), c. split; [reflexivity|].
    rewrite !ctext_cons, T. split; [rewrite app_assoc, <- E; reflexivity|]. split; [exact F|]. split; [constructor; assumption|].
    destruct (lstrip_head (ss_text s)) as [H|H]; [apply lstrip_nil in H; unfold is_white in IW; congruence|exact H].
Qed.
Lemma end_chunk e c : white_chunk c = false -> Forall sound c -> exists B r s m, trim_end_chunk e c = r ++ [s] /\ ctext c = ctext (r ++ [s]) ++ B /\ Forall blank B /\
  Forall sound (r ++ [s]) /\ (exists u z, ss_text s = u ++ [z] /\ ~ blank z) /\ map ss_state c = map ss_state (r ++ [s]) ++ m.
Proof.
  unfold trim_end_chunk. induction c as [|s c IH] using rev_ind; [discriminate|]. rewrite white_app, rev_app_distr. cbn [white_chunk forallb rev app trim_end_rev]. rewrite andb_true_r. intros W S.
  apply Forall_app in S as (S2 & S1). inversion S1 as [|? ? SS _]; subst. destruct (is_white s) eqn:IW.
  - rewrite andb_true_r in W. destruct (IH W S2) as (B & r & s' & m & T & CT & F & R & U & M). exists (B ++ ss_text s), r, s', (m ++ [ss_state s]). split; [exact T|].
    rewrite ctext_app, CT. split; [unfold ctext at 2; cbn [map concat]; rewrite app_nil_r, <- app_assoc; reflexivity|]. split; [apply Forall_app; split; [exact F|apply is_white_blank, IW]|].
    split; [exact R|]. split; [exact U|]. rewrite map_app, M. cbn [map]. rewrite app_assoc. reflexivity.
  - destruct (end_sound e s SS) as (T & SE). destruct (rstrip_prefix (ss_text s)) as (B & E & F). exists B, c, (trimmed_end e s), []. cbn [rev]. rewrite rev_involutive. split; [reflexivity|].
    rewrite !ctext_app. unfold ctext at 2 4. cbn [map concat]. rewrite !app_nil_r, T. split; [rewrite <- app_assoc, <- E; reflexivity|]. split; [exact F|].
    split; [apply Forall_app; split; [exact S2|constructor; [exact SE|constructor]]|]. split.
    + destruct (rstrip_last (ss_text s)) as [H|H]; [apply rstrip_nil in H; unfold is_white in IW; congruence|exact H].
    + rewrite !map_app. reflexivity.
Qed.
(** ** Lists of chunks *)
Definition white_all (l : list chunk) : bool := forallb white_chunk l.
Lemma white_all_concat l : white_all l = white_chunk (concat l).
Proof. induction l as [|c l IH]; cbn [white_all forallb concat]; [reflexivity|]. rewrite white_app. f_equal. exact IH. Qed.
Lemma text_ctext l : text_of l = ctext (concat l).
Proof. reflexivity. Qed.
Lemma trim_begin_spec e l : Forall (fun c => c <> []) l -> Forall sound (concat l) ->
  (white_all l = true /\ trim_begin e l = []) \/
  (white_all l = false /\ exists A c r, trim_begin e l = c :: r /\ text_of l = A ++ text_of (c :: r) /\ Forall blank A /\ Forall (fun c => c <> []) (c :: r) /\ Forall sound (concat (c :: r)) /\
    white_all (c :: r) = false /\ exists z u, text_of (c :: r) = z :: u /\ ~ blank z).
Proof.
  induction l as [|c l IH]; intros N S; [left; auto|]. inversion N as [|? ? N1 N2]; subst. cbn [concat] in S. apply Forall_app in S as (S1 & S2).
  unfold white_all in *. cbn [forallb trim_begin]. destruct (white_chunk c) eqn:W; cbn [andb].
  - destruct (IH N2 S2) as [H|(H1 & A & c' & r & T & TX & F & R)]; [left; exact H|]. right. split; [exact H1|]. exists (ctext c ++ A), c', r. split; [exact T|].
    rewrite !text_ctext in *. cbn [concat] in *. rewrite ctext_app, TX, app_assoc. split; [reflexivity|]. split; [apply Forall_app; split; [apply white_blank, W|exact F]|exact R].
  - right. split; [reflexivity|]. destruct (begin_chunk e c W S1) as (A & s & r & T & CT & F & SS & z & u & Z & NB). exists A, (s :: r), l. rewrite T. split; [reflexivity|].
    rewrite !text_ctext. cbn [concat]. rewrite !ctext_app, CT, app_assoc. split; [reflexivity|]. split; [exact F|]. split; [constructor; [discriminate|exact N2]|].
    split; [apply Forall_app; split; assumption|].
    split.
    + unfold white_chunk at 1. cbn [forallb]. unfold is_white at 1. rewrite Z. cbn [forallb]. rewrite (proj2 (white_false z) NB). reflexivity.
    + exists z, (u ++ ctext r ++ ctext (concat l)). split; [|exact NB]. rewrite ctext_cons, Z. cbn [app]. rewrite <- app_assoc. reflexivity.
Qed.
Lemma trim_tail_spec e l : Forall (fun c => c <> []) l -> Forall sound (concat l) ->
  (white_all l = true /\ trim_tail_rev e (rev l) = []) \/
  (white_all l = false /\ exists B L m, rev (trim_tail_rev e (rev l)) = L /\ L <> [] /\ text_of l = text_of L ++ B /\ Forall blank B /\ Forall (fun c => c <> []) L /\ Forall sound (concat L) /\
    (exists u z, text_of L = u ++ [z] /\ ~ blank z) /\ map ss_state (concat l) = map ss_state (concat L) ++ m).
Proof.
  induction l as [|c l IH] using rev_ind; intros N S; [left; auto|]. apply Forall_app in N as (N2 & N1). inversion N1 as [|? ? NC _]; subst. rewrite concat_app in S. cbn [concat] in S.
  rewrite app_nil_r in S. apply Forall_app in S as (S2 & S1). unfold white_all in *. rewrite forallb_app, rev_app_distr. cbn [forallb rev app trim_tail_rev]. rewrite andb_true_r.
  destruct (white_chunk c) eqn:W.
  - rewrite andb_true_r. destruct (IH N2 S2) as [H|(H1 & B & L & m & T & NL & TX & F & R1 & R2 & R3 & M)]; [left; exact H|]. right. split; [exact H1|].
    exists (B ++ ctext c), L, (m ++ map ss_state c). split; [exact T|]. split; [exact NL|]. rewrite !text_ctext in *. rewrite concat_app, ctext_app, TX. cbn [concat]. rewrite app_nil_r, app_assoc.
    split; [reflexivity|]. split; [apply Forall_app; split; [exact F|apply white_blank, W]|]. repeat (split; [assumption|]). rewrite map_app, M, app_assoc. reflexivity.
  - right. rewrite andb_false_r. split; [reflexivity|]. destruct (end_chunk e c W S1) as (B & r & s & m & T & CT & F & SS & (u & z & Z & NB) & M). cbn [rev]. rewrite rev_involutive, T.
    exists B, (l ++ [r ++ [s]]), m. split; [reflexivity|]. split; [intro X; apply app_eq_nil in X as (_ & X); discriminate|]. rewrite !text_ctext, !concat_app, !ctext_app. cbn [concat]. rewrite !app_nil_r, CT, !ctext_app.
    split; [rewrite !app_assoc; reflexivity|]. split; [exact F|]. split; [apply Forall_app; split; [exact N2|constructor; [|constructor]]; intro X; apply app_eq_nil in X as (_ & X); discriminate|].
    split; [apply Forall_app; split; assumption|]. split.
    + exists (ctext (concat l) ++ ctext r ++ u), z. split; [|exact NB]. unfold ctext at 3. cbn [map concat]. rewrite app_nil_r, Z, <- !app_assoc. reflexivity.
    + rewrite !map_app. rewrite M, map_app, <- !app_assoc. reflexivity.
Qed.
Lemma trim_spec e l : Forall (fun c => c <> []) l -> Forall sound (concat l) ->
  (Forall blank (text_of l) /\ trim e l = []) \/
  (exists L, trim e l = L /\ full L /\ Forall sound (concat L) /\ stripped (text_of l) (text_of L) /\ text_of L <> []).
Proof.
  intros N S. unfold trim. destruct (trim_begin_spec e l N S) as [(W & T)|(W & A & c & r & T & TX & F & N1 & S1 & W1 & z & u & Z & NB)].
  - left. rewrite T. split; [|reflexivity]. rewrite text_ctext. apply white_blank. rewrite <- white_all_concat. exact W.
  - right. rewrite T. destruct (trim_tail_spec e (c :: r) N1 S1) as [(W2 & _)|(_ & B & L & m & TT & NL & TX2 & F2 & N2 & S2 & (u2 & z2 & Z2 & NB2) & M)]; [congruence|].
    exists L. split; [exact TT|]. split; [split; assumption|]. split; [exact S2|]. split; [|rewrite Z2; destruct u2; discriminate].
    exists A, B. rewrite TX, TX2. split; [reflexivity|]. split; [exact F|]. split; [exact F2|]. right. split; [|eauto].
    rewrite Z in TX2. destruct (text_of L) as [|z3 u3]; [destruct u2; discriminate|]. cbn [app] in TX2. injection TX2 as <- _. eauto.
Qed.
(** The first string stays where it is if it begins with other text *)
Lemma trim_first e c l s r : Forall (fun c => c <> []) (c :: l) -> Forall sound (concat (c :: l)) -> c = s :: r -> (exists z u, ss_text s = z :: u /\ ~ blank z) ->
  exists s' q, concat (trim e (c :: l)) = s' :: q /\ ss_state s' = ss_state s.
Proof.
  intros N S -> (z & u & Z & NB). unfold trim.
  assert (WS : is_white s = false) by (unfold is_white; rewrite Z; cbn [forallb]; rewrite (proj2 (white_false z) NB); reflexivity).
  assert (T : trim_begin e ((s :: r) :: l) = (trimmed_begin e s :: r) :: l).
  { cbn [trim_begin white_chunk forallb]. rewrite WS. cbn [andb trim_begin_chunk]. rewrite WS. reflexivity. }
  assert (STT : ss_state (trimmed_begin e s) = ss_state s).
  { unfold trimmed_begin. replace (count_white (ss_text s)) with 0%nat by (rewrite Z; cbn [count_white]; rewrite (proj2 (white_false z) NB); reflexivity). reflexivity. }
  rewrite T. inversion N as [|? ? N1 N2]; subst. cbn [concat app] in S. inversion S as [|? ? S1 S2]; subst.
  destruct (begin_sound e s S1) as (TX & SB).
  destruct (trim_tail_spec e ((trimmed_begin e s :: r) :: l)) as [(W2 & _)|(_ & B & L & m & TT & NL & _ & _ & N3 & _ & _ & M)].
  - constructor; [discriminate|exact N2].
  - cbn [concat app]. constructor; assumption.
  - exfalso. unfold white_all in W2. cbn [forallb white_chunk] in W2. apply andb_true_iff in W2 as (W2 & _). apply andb_true_iff in W2 as (W2 & _). unfold is_white in W2.
    rewrite TX, Z in W2. cbn [lstrip forallb] in W2. rewrite (proj2 (white_false z) NB) in W2. cbn [forallb] in W2. rewrite (proj2 (white_false z) NB) in W2. discriminate.
  - match goal with |- exists s' q, concat ?X = _ /\ _ => assert (XX : X = L) by exact TT; rewrite XX end. destruct L as [|[|s' q] L]; [congruence|inversion N3; congruence|]. cbn [concat app] in *. exists s', (q ++ concat L). split; [reflexivity|].
    cbn [map] in M. rewrite STT in M. injection M as M _. symmetry. exact M.
Qed.
