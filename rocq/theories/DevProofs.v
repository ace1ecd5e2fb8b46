(** Proofs for devices in memory. *)
From Coq Require Import Lia.
From Verif Require Import Base DevModel DevSpec Md5.
Local Open Scope Z_scope.

Lemma wrap_id z : 0 <= z < size_max -> wrap z = z.
Proof. intros H. apply Z.mod_small. exact H. Qed.
Lemma nth_skip (l : list Z) : forall p k, nth k (skipn p l) 0 = nth (p + k) l 0.
Proof. induction l as [|a l IH]; intros [|p] k; cbn; auto. destruct k; reflexivity. Qed.
Lemma nth_first (l : list Z) : forall n k, (k < n)%nat -> nth k (firstn n l) 0 = nth k l 0.
Proof. induction l as [|a l IH]; intros [|n] [|k] H; cbn; auto; try lia. apply IH. lia. Qed.
Lemma put_ok buf p data : 0 <= p -> p + Z.of_nat (length data) <= Z.of_nat (length buf) ->
  exists b, put buf p data = Ok b /\ length b = length buf /\
  forall i, 0 <= i < Z.of_nat (length buf) -> nth (Z.to_nat i) b 0 = if (p <=? i) && (i <? p + Z.of_nat (length data)) then nth (Z.to_nat (i - p)) data 0 else nth (Z.to_nat i) buf 0.
Proof.
  intros P L. unfold put. replace ((p <? 0) || (Z.of_nat (length buf) <? p + Z.of_nat (length data))) with false by (symmetry; apply Bool.orb_false_iff; split; apply Z.ltb_ge; lia).
  eexists. split; [reflexivity|]. split; [rewrite !app_length, firstn_length, skipn_length; lia|].
  intros i I. assert (LF : length (firstn (Z.to_nat p) buf) = Z.to_nat p) by (rewrite firstn_length; lia).
  destruct (Z.leb_spec p i), (Z.ltb_spec i (p + Z.of_nat (length data))); cbn [andb].
  - rewrite app_nth2 by lia. rewrite app_nth1 by lia. f_equal. lia.
  - rewrite app_nth2 by lia. rewrite app_nth2 by lia. rewrite nth_skip. f_equal. lia.
  - rewrite app_nth1 by lia. apply nth_first. lia.
  - rewrite app_nth1 by lia. apply nth_first. lia.
Qed.
Lemma get_ok buf p n : 0 <= p -> 0 <= n -> p + n <= Z.of_nat (length buf) ->
  exists l, get buf p n = Ok l /\ Z.of_nat (length l) = n /\ forall k, (k < length l)%nat -> nth k l 0 = nth (Z.to_nat (p + Z.of_nat k)) buf 0.
Proof.
  intros P N L. unfold get. replace ((p <? 0) || (Z.of_nat (length buf) <? p + n)) with false by (symmetry; apply Bool.orb_false_iff; split; apply Z.ltb_ge; lia).
  eexists. split; [reflexivity|]. split; [rewrite firstn_length, skipn_length; lia|]. intros k K. rewrite firstn_length, skipn_length in K.
  rewrite nth_first by lia. rewrite nth_skip. f_equal. lia.
Qed.

Definition flags (d e : dev) : Prop := d_grows e = d_grows d /\ d_read e = d_read d /\ d_write e = d_write d.
Lemma read_buffer_ok d m n : shows d m -> m_len m < 9223372036854775808 -> 0 <= n ->
  exists l eof, read_buffer d n = (set_pos d (d_pos d + Z.of_nat (length l)), Ok (l, eof)) /\ Z.of_nat (length l) = Z.min n (m_len m - m_pos m) /\
  stands m (m_pos m) l /\ (eof = true <-> m_len m <= m_pos m + n).
Proof.
  intros (L & P & R & G) B N. unfold read_buffer. unfold d_len. rewrite <- L, (wrap_id (m_len m - d_pos d)) by (unfold size_max; lia).
  destruct (get_ok (d_buf d) (d_pos d) (Z.min n (m_len m - d_pos d))) as (l & -> & LL & NL); try lia.
  rewrite (wrap_id (d_pos d + _)) by (unfold size_max; lia). exists l, (d_pos d + Z.of_nat (length l) =? m_len m).
  rewrite LL. repeat split; try congruence.
  - intros k K. rewrite NL by assumption. rewrite P. apply G. lia.
  - rewrite Z.eqb_eq. lia.
  - rewrite Z.eqb_eq. lia.
Qed.
Lemma shows_pos d m p : shows d m -> 0 <= p <= m_len m -> shows (set_pos d p) (at_pos m p).
Proof. intros (L & P & R & G) B. unfold shows. cbn. auto. Qed.
Lemma char_at_ok d m : shows d m -> (m_pos m < m_len m /\ char_at d = Ok (Some (m_at m (m_pos m)))) \/ (m_pos m = m_len m /\ char_at d = Ok None).
Proof.
  intros (L & P & R & G). unfold char_at, d_len. rewrite <- L. destruct (Z.eqb_spec (d_pos d) (m_len m)); [right; split; [lia|reflexivity]|left; split; [lia|]].
  destruct (get_ok (d_buf d) (d_pos d) 1) as (l & -> & LL & NL); try lia. cbn [bind]. rewrite NL by lia. rewrite P. do 2 f_equal. rewrite Z.add_0_r. apply G. lia.
Qed.
Lemma seek_ok m off d : 0 <= m_pos m <= m_len m -> m_len m < 9223372036854775808 -> -9223372036854775808 < off < 9223372036854775808 ->
  (0 <= base m d + off <= m_len m /\ seek_position (m_pos m) (m_len m) off d = Ok (base m d + off)) \/
  (~ 0 <= base m d + off <= m_len m /\ seek_position (m_pos m) (m_len m) off d = Err (if match d with Begin => off <? 0 | Current => false | End_ => 0 <? off end then EInvalidDeviceOperation else EValueOutOfRange)).
Proof.
  intros P L O. unfold seek_position, neg, base, ssize_min. rewrite (proj2 (Z.eqb_neq off (-9223372036854775808))) by lia. cbn [bind]. destruct d.
  - destruct (Z.ltb_spec off 0); [right; split; [lia|reflexivity]|]. destruct (Z.ltb_spec (m_len m) off); [right; split; [lia|reflexivity]|left; split; [lia|reflexivity]].
  - destruct (Z.eqb_spec off 0); [left; split; [lia|f_equal; lia]|]. destruct (Z.ltb_spec 0 off).
    + rewrite wrap_id by (unfold size_max; lia). destruct (Z.ltb_spec (m_len m - m_pos m) off); [right; split; [lia|reflexivity]|left; split; [lia|]]. rewrite wrap_id by (unfold size_max; lia). reflexivity.
    + destruct (Z.ltb_spec (m_pos m) (- off)); [right; split; [lia|reflexivity]|left; split; [lia|]]. rewrite wrap_id by (unfold size_max; lia). reflexivity.
  - destruct (Z.ltb_spec 0 off); [right; split; [lia|reflexivity]|]. destruct (Z.ltb_spec (m_len m) (- off)); [right; split; [lia|reflexivity]|left; split; [lia|]]. rewrite wrap_id by (unfold size_max; lia). reflexivity.
Qed.

Lemma write_ok d m data : shows d m -> m_len m + Z.of_nat (length data) < 9223372036854775808 -> d_grows d = true \/ m_pos m + Z.of_nat (length data) <= m_len m ->
  exists d', write_buffer d data = (d', Ok Done) /\ shows d' (after_write m data) /\ flags d d'.
Proof.
  intros (L & P & R & G) B C. unfold write_buffer, d_len. rewrite (wrap_id (d_pos d + _)) by (unfold size_max; lia). cbv zeta.
  destruct (Z.ltb_spec (Z.of_nat (length (d_buf d))) (d_pos d + Z.of_nat (length data))) as [LT|GE].
  - destruct C as [C|C]; [|exfalso; lia]. rewrite C. cbn [d_buf d_pos d_grows d_read d_write].
    set (w := d_buf d ++ repeat 0 (Z.to_nat (d_pos d + Z.of_nat (length data) - Z.of_nat (length (d_buf d))))).
    assert (LW : Z.of_nat (length w) = d_pos d + Z.of_nat (length data)) by (unfold w; rewrite app_length, repeat_length; lia).
    destruct (put_ok w (d_pos d) data) as (b & -> & LB & NB); try lia.
    eexists. split; [reflexivity|]. split; [|unfold flags; cbn; auto]. unfold shows, after_write. cbn [m_len m_pos m_at d_buf d_pos]. rewrite P. rewrite ?wrap_id by (unfold size_max; lia). repeat split; try lia.
    intros i I. rewrite NB by lia. destruct (_ && _) eqn:E; [reflexivity|]. apply Bool.andb_false_iff in E. rewrite Z.leb_gt, Z.ltb_ge in E.
    unfold w. rewrite app_nth1 by lia. apply G. lia.
  - destruct (put_ok (d_buf d) (d_pos d) data) as (b & -> & LB & NB); try lia.
    eexists. split; [reflexivity|]. split; [|unfold flags; cbn; auto]. unfold shows, after_write. cbn [m_len m_pos m_at d_buf d_pos]. rewrite P. rewrite ?wrap_id by (unfold size_max; lia). repeat split; try lia.
    intros i I. rewrite NB by lia. destruct (_ && _) eqn:E; [reflexivity|]. apply G. lia.
Qed.

Lemma step_ok d m o : shows d m -> op_ok o -> m_len m + written o < 9223372036854775808 ->
  exists m', does (d_grows d) (d_read d) (d_write d) m o m' (snd (step d o)) /\ shows (fst (step d o)) m' /\ flags d (fst (step d o)) /\ m_len m' <= m_len m + written o.
Proof.
  intros S0 O B. assert (S1 := S0). destruct S1 as (L & P & R & G). assert (FL : flags d d) by (unfold flags; auto).
  assert (FP : forall p, flags d (set_pos d p)) by (intros p; unfold flags; cbn; auto).
  destruct o as [data|n|n| | |off dr]; cbn [op_ok written] in O, B; cbn [step written].
  - destruct data as [|b data]; [exists m; cbn [fst snd]; split; [apply D_nothing|split; [exact S0|split; [exact FL|cbn; lia]]]|].
    set (D := b :: data) in *. assert (ND : D <> []) by discriminate. clearbody D. destruct (d_write d) eqn:W.
    + destruct (d_grows d) eqn:GR; [|destruct (Z.leb_spec (m_pos m + Z.of_nat (length D)) (m_len m))].
      * destruct (write_ok d m D S0 B) as (d' & -> & S' & F'); [left; exact GR|]. exists (after_write m D). cbn [fst snd]. split; [constructor; auto|]. split; [exact S'|]. split; [exact F'|]. cbn. lia.
      * destruct (write_ok d m D S0 B) as (d' & -> & S' & F'); [right; assumption|]. exists (after_write m D). cbn [fst snd]. split; [constructor; auto|]. split; [exact S'|]. split; [exact F'|]. cbn. lia.
      * exists m. unfold write_buffer, d_len. rewrite (wrap_id (d_pos d + _)) by (unfold size_max; lia). cbv zeta. rewrite (proj2 (Z.ltb_lt _ _)) by lia. rewrite GR. cbn [fst snd].
        split; [apply D_full; auto|]. split; [exact S0|]. split; [exact FL|lia].
    + exists m. cbn [fst snd]. split; [apply D_no_write; auto|]. split; [exact S0|]. split; [exact FL|lia].
  - destruct (d_read d) eqn:RD; [|exists m; cbn [fst snd]; split; [apply D_no_read; auto; exact Logic.I|split; [exact S0|split; [exact FL|lia]]]].
    destruct (read_buffer_ok d m n S0) as (l & eof & -> & LL & ST & EO); [lia|lia|]. cbn [fst snd bind]. exists (at_pos m (m_pos m + Z.of_nat (length l))).
    split; [apply D_read; auto|]. split; [rewrite P; apply shows_pos; [exact S0|lia]|]. split; [apply FP|cbn; lia].
  - destruct (d_read d) eqn:RD; [|exists m; cbn [fst snd]; split; [apply D_no_read; auto; exact Logic.I|split; [exact S0|split; [exact FL|lia]]]].
    cbn [read_all length Z.of_nat app]. rewrite Z.sub_0_r. destruct (read_buffer_ok d m n S0) as (l & eof & -> & LL & ST & EO); [lia|lia|].
    destruct (Z.eqb_spec (Z.of_nat (length l)) n) as [E|N].
    + cbn [fst snd bind]. exists (at_pos m (m_pos m + n)). split; [apply D_read_all; auto; [lia|]|].
      * cbn. unfold d_len. cbn. rewrite Z.eqb_eq. lia.
      * split; [rewrite P, <- E; apply shows_pos; [exact S0|lia]|]. split; [apply FP|cbn; lia].
    + assert (eof = true) as -> by (apply EO; lia). cbn [fst snd bind]. exists (at_pos m (m_len m)).
      split; [apply D_short; auto; lia|]. split; [|split; [apply FP|cbn; lia]]. replace (d_pos d + Z.of_nat (length l)) with (m_len m) by lia. apply shows_pos; [exact S0|lia].
  - destruct (d_read d) eqn:RD; [|exists m; cbn [fst snd]; split; [apply D_no_read; auto; exact Logic.I|split; [exact S0|split; [exact FL|lia]]]].
    destruct (char_at_ok d m S0) as [[LT ->]|[E ->]]; cbn [fst snd].
    + exists (at_pos m (m_pos m + 1)). split; [apply D_char; auto|]. rewrite (wrap_id (d_pos d + 1)) by (unfold size_max; lia). split; [rewrite P; apply shows_pos; [exact S0|lia]|]. split; [apply FP|cbn; lia].
    + exists m. split; [apply D_char_end; auto|]. split; [exact S0|]. split; [exact FL|lia].
  - destruct (d_read d) eqn:RD; [|exists m; cbn [fst snd]; split; [apply D_no_read; auto; exact Logic.I|split; [exact S0|split; [exact FL|lia]]]].
    destruct (char_at_ok d m S0) as [[LT ->]|[E ->]]; cbn [fst snd bind]; exists m.
    + split; [apply D_peek; auto|]. split; [exact S0|]. split; [exact FL|lia].
    + split; [apply D_peek_end; auto|]. split; [exact S0|]. split; [exact FL|lia].
  - unfold d_len. rewrite <- L, <- P. destruct (seek_ok m off dr) as [[I ->]|[I ->]]; try lia; cbn [fst snd].
    + exists (at_pos m (base m dr + off)). split; [apply D_seek; exact I|]. split; [apply shows_pos; [exact S0|lia]|]. split; [apply FP|cbn; lia].
    + exists m. split; [apply D_seek_out; [exact I|destruct (match dr with Begin => off <? 0 | Current => false | End_ => 0 <? off end); reflexivity]|]. split; [exact S0|]. split; [exact FL|lia].
Qed.
Lemma written_nonneg ops : 0 <= written_all ops.
Proof. induction ops as [|o ops IH]; [cbn; lia|]. change (0 <= written o + written_all ops). destruct o; cbn [written]; lia. Qed.
Lemma run_ok ops : forall d m, shows d m -> Forall op_ok ops -> m_len m + written_all ops < 9223372036854775808 ->
  exists m', history (d_grows d) (d_read d) (d_write d) m ops m' (snd (run d ops)) /\ shows (fst (run d ops)) m'.
Proof.
  induction ops as [|o ops IH]; intros d m S0 F B; [exists m; split; [constructor|exact S0]|].
  change (written_all (o :: ops)) with (written o + written_all ops) in B. pose proof (written_nonneg ops).
  assert (O : op_ok o) by (inversion F; assumption). assert (F' : Forall op_ok ops) by (inversion F; assumption).
  destruct (step_ok d m o S0 O) as (m1 & D & S1 & (FG & FR & FW) & LE); [lia|]. cbn [run]. destruct (step d o) as [d1 r]. cbn [fst snd] in *.
  destruct (IH d1 m1 S1 F') as (m2 & H2 & S2); [lia|]. rewrite FG, FR, FW in H2. destruct (run d1 ops) as [d2 rs]. cbn [fst snd] in *. exists m2. split; [econstructor; eauto|exact S2].
Qed.
(** The new devices *)
Lemma shows_of g r w buf p : 0 <= p <= Z.of_nat (length buf) -> shows (mk_dev g r w buf p) (mem_of buf p).
Proof. intros P. unfold shows. cbn. repeat split; lia || auto. Qed.

(** Writes only *)
Lemma write_append d data : d_grows d = true -> d_write d = true -> d_pos d = d_len d -> d_len d + Z.of_nat (length data) < 9223372036854775808 ->
  step d (Write data) = (mk_dev true (d_read d) true (d_buf d ++ data) (d_len d + Z.of_nat (length data)), Ok Done).
Proof.
  intros G W P B. destruct data as [|b data].
  - cbn. destruct d as [g r w u p]. unfold d_len in *. cbn in *. subst. rewrite app_nil_r, Z.add_0_r. reflexivity.
  - set (D := b :: data) in *. assert (0 < Z.of_nat (length D)) by (unfold D; cbn; lia).
    replace (step d (Write D)) with (write_buffer d D) by (unfold D; cbn [step]; rewrite W; reflexivity). clearbody D.
    unfold d_len in *. unfold write_buffer, d_len. rewrite P. rewrite wrap_id by (unfold size_max; lia). cbv zeta. rewrite (proj2 (Z.ltb_lt _ _)) by lia. rewrite G.
    cbn [d_buf d_pos d_grows d_read d_write]. unfold put. rewrite app_length, repeat_length.
    replace ((Z.of_nat (length (d_buf d)) <? 0) || _) with false by (symmetry; apply Bool.orb_false_iff; split; apply Z.ltb_ge; lia).
    rewrite ?P, ?wrap_id by (unfold size_max; lia). rewrite W. do 2 f_equal.
    rewrite Nat2Z.id, firstn_app, Nat.sub_diag, firstn_all, firstn_O, app_nil_r. f_equal. rewrite skipn_all2 by (rewrite app_length, repeat_length; lia). apply app_nil_r.
Qed.
Lemma write_all_append chunks : forall d, d_grows d = true -> d_write d = true -> d_pos d = d_len d -> d_len d + Z.of_nat (length (concat chunks)) < 9223372036854775808 ->
  d_buf (write_all d chunks) = d_buf d ++ concat chunks.
Proof.
  unfold write_all. induction chunks as [|c chunks IH]; intros d G W P B; [cbn; rewrite app_nil_r; reflexivity|].
  cbn [map run concat] in *. rewrite app_length in B. rewrite write_append by (auto; lia).
  specialize (IH (mk_dev true (d_read d) true (d_buf d ++ c) (d_len d + Z.of_nat (length c)))).
  destruct (run _ (map Write chunks)) as [d2 rs] eqn:E. cbn [fst] in *. rewrite IH; unfold d_len in *; cbn in *; auto; rewrite ?app_length; try lia. rewrite app_assoc. reflexivity.
Qed.
Lemma null_length chunks : forall n, 0 <= n -> n + Z.of_nat (length (concat chunks)) < 9223372036854775808 ->
  fold_left null_write chunks (mk_null n n) = mk_null (n + Z.of_nat (length (concat chunks))) (n + Z.of_nat (length (concat chunks))).
Proof.
  induction chunks as [|c chunks IH]; intros n N B; [cbn; rewrite Z.add_0_r; reflexivity|]. cbn [fold_left concat] in *. rewrite app_length in *.
  unfold null_write at 2. cbn. rewrite wrap_id by (unfold size_max; lia).
  replace (if n <? n + Z.of_nat (length c) then n + Z.of_nat (length c) else n) with (n + Z.of_nat (length c)) by (destruct (Z.ltb_spec n (n + Z.of_nat (length c))); lia).
  rewrite IH by lia. f_equal; lia.
Qed.
Lemma identifier_zeros chunks : Z.of_nat (length (concat chunks)) < 4611686018427387904 -> identifier chunks = md5 (repeat 0 (length (concat chunks))).
Proof.
  intros B. unfold identifier, null_new. rewrite null_length by lia. cbn [n_len]. rewrite Z.add_0_l, Nat2Z.id.
  rewrite write_all_append; unfold container_dev, d_len; cbn [d_buf d_grows d_write d_pos]; rewrite ?repeat_length; auto; [|lia].
  rewrite firstn_app, repeat_length, Nat.sub_diag, firstn_O, app_nil_r. rewrite firstn_all2 by (rewrite repeat_length; lia). reflexivity.
Qed.
