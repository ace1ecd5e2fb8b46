(** The file that is written: what a reader finds in its directory. *)
From Coq Require Import Lia String.
From Verif Require Import Base ChainProofs TtfModel TtfSpec TtfReadProofs TtfLoadProofs TtfOrderProofs.
Local Open Scope Z_scope.

(** ** Numbers *)
Lemma size_app a b : size (a ++ b) = size a + size b.
Proof. unfold size. rewrite app_length. lia. Qed.
Lemma byte_after a b o : 0 <= o -> byte (a ++ b) (size a + o) = byte b o.
Proof. intros H. rewrite byte_app_r by lia. f_equal. lia. Qed.
Lemma at16_after a b o : 0 <= o -> at16 (a ++ b) (size a + o) = at16 b o.
Proof. intros H. unfold at16. rewrite <- Z.add_assoc. rewrite !byte_after by lia. reflexivity. Qed.
Lemma at32_after a b o : 0 <= o -> at32 (a ++ b) (size a + o) = at32 b o.
Proof. intros H. unfold at32. rewrite <- Z.add_assoc. rewrite !at16_after by lia. reflexivity. Qed.
Lemma at16_be v r : 0 <= v < 2 ^ 16 -> at16 (be16 v ++ r) 0 = v.
Proof. intros H. unfold at16, byte, be16. cbn [app]. change (Z.to_nat (0 + 1)) with 1%nat. change (Z.to_nat 0) with 0%nat. cbn [nth]. Z.div_mod_to_equations. lia. Qed.
Lemma at32_be v r : 0 <= v < 2 ^ 32 -> at32 (be32 v ++ r) 0 = v.
Proof.
  intros H. unfold at32, at16, byte, be32. cbn [app]. change (Z.to_nat (0 + 2 + 1)) with 3%nat. change (Z.to_nat (0 + 2)) with 2%nat. change (Z.to_nat (0 + 1)) with 1%nat. change (Z.to_nat 0) with 0%nat. cbn [nth].
  change (2 ^ 24) with (256 * 65536). change (2 ^ 16) with (256 * 256). rewrite <- !Z.div_div by lia. Z.div_mod_to_equations. lia.
Qed.
Lemma slice_after a b o n : 0 <= o -> slice (a ++ b) (size a + o) n = slice b o n.
Proof. intros H. unfold slice, size. f_equal. rewrite skipn_app. rewrite skipn_all2 by lia. cbn [app]. f_equal. lia. Qed.
Lemma slice_first a b : slice (a ++ b) 0 (size a) = a.
Proof. unfold slice, size. rewrite Nat2Z.id. change (Z.to_nat 0) with 0%nat. cbn [skipn]. rewrite firstn_app, Nat.sub_diag, firstn_all, firstn_O, app_nil_r. reflexivity. Qed.
Lemma slice_mid a b c : slice (a ++ b ++ c) (size a) (size b) = b.
Proof. rewrite <- (Z.add_0_r (size a)), slice_after by lia. apply slice_first. Qed.

(** ** The directory: a table is its tag, its checksum and its bytes *)
Definition item : Type := Z * Z * list Z.
Definition i_tag (x : item) : Z := fst (fst x).
Definition i_sum (x : item) : Z := snd (fst x).
Definition i_body (x : item) : list Z := snd x.
Fixpoint dirb (off : Z) (l : list item) : list Z :=
  match l with
  | [] => []
  | x :: r => be32 (i_tag x) ++ be32 (i_sum x) ++ be32 (u32 off) ++ be32 (u32 (size (i_body x))) ++ dirb (off + size (padded (i_body x))) r
  end.
Fixpoint bodies (l : list item) : list Z := match l with [] => [] | x :: r => padded (i_body x) ++ bodies r end.
Fixpoint entries (off : Z) (l : list item) : list entry :=
  match l with [] => [] | x :: r => mk_en (i_tag x) (i_sum x) off (size (i_body x)) :: entries (off + size (padded (i_body x))) r end.
Lemma padded_size b : size b <= size (padded b) /\ size (padded b) < size b + 4 /\ size (padded b) mod 4 = 0.
Proof.
  unfold padded. change (len b) with (size b). pose proof (Z.mod_pos_bound (4 - size b mod 4) 4 ltac:(lia)) as B. assert (R : size (repeat 0 (Z.to_nat ((4 - size b mod 4) mod 4))) = (4 - size b mod 4) mod 4) by (unfold size at 1; rewrite repeat_length; lia). rewrite size_app, R. clear R. split; [lia|]. split; [lia|]. pose proof (size_nonneg b). Z.div_mod_to_equations. lia.
Qed.
Lemma dirb_size l : forall off, size (dirb off l) = 16 * Z.of_nat (length l).
Proof. induction l as [|x l IH]; intros off; [reflexivity|]. cbn [dirb length]. rewrite !size_app, IH. change (size (be32 (i_tag x))) with 4. change (size (be32 (i_sum x))) with 4. change (size (be32 (u32 off))) with 4. change (size (be32 (u32 (size (i_body x))))) with 4. lia. Qed.
Definition in_word (v : Z) : Prop := 0 <= v < 2 ^ 32.
Lemma at32_skip v r o : 0 <= o -> at32 (be32 v ++ r) (4 + o) = at32 r o.
Proof. intros H. change 4 with (size (be32 v)). apply at32_after. exact H. Qed.
Lemma dir_read l : forall off pre i, size pre = 12 + 16 * Z.of_nat i -> 0 <= off -> off + size (bodies l) < 2 ^ 32 -> Forall (fun x => in_word (i_tag x) /\ in_word (i_sum x)) l -> forall post,
  map (entry_at (pre ++ dirb off l ++ post)) (seq i (length l)) = entries off l.
Proof.
  induction l as [|x l IH]; intros off pre i SP O B F post; [reflexivity|]. inversion F as [|y z [F1 F2] F3]; subst. cbn [length seq map entries]. pose proof (padded_size (i_body x)) as (P1 & P2 & _). pose proof (size_nonneg (i_body x)). pose proof (size_nonneg (bodies l)). cbn [bodies] in B. rewrite size_app in B. unfold in_word in *. f_equal.
  - unfold entry_at. rewrite <- SP. cbn [dirb]. rewrite <- !app_assoc. rewrite <- (Z.add_0_r (size pre)) at 1. rewrite !at32_after by lia. rewrite at32_be by lia. rewrite <- (Z.add_0_r 4) at 1. rewrite at32_skip by lia. rewrite at32_be by lia. change 8 with (4 + (4 + 0)). rewrite !at32_skip by lia. rewrite at32_be by (unfold u32; apply Z.mod_pos_bound; lia). change 12 with (4 + (4 + (4 + 0))). rewrite !at32_skip by lia. rewrite at32_be by (unfold u32; apply Z.mod_pos_bound; lia). unfold u32. rewrite !Z.mod_small by lia. reflexivity.
  - set (e := be32 (i_tag x) ++ be32 (i_sum x) ++ be32 (u32 off) ++ be32 (u32 (size (i_body x)))). specialize (IH (off + size (padded (i_body x))) (pre ++ e) (S i)). rewrite <- (IH ltac:(rewrite size_app; change (size e) with 16; lia) ltac:(lia) ltac:(lia) F3 post). cbn [dirb]. unfold e. rewrite <- !app_assoc. reflexivity.
Qed.
Lemma Forall2_weaken {A B} (R R' : A -> B -> Prop) l l' : (forall a b, R a b -> R' a b) -> Forall2 R l l' -> Forall2 R' l l'.
Proof. intros H F. induction F; constructor; auto. Qed.
Lemma Forall2_left {A B} (R : A -> B -> Prop) l l' a : Forall2 R l l' -> In a l -> exists b, R a b.
Proof. intros F I. induction F as [|x y l l' H F IH]; [contradiction|]. destruct I as [->|I]; [exists y; exact H|exact (IH I)]. Qed.
Lemma entries_in l : forall off pre, size pre = off -> forall post, Forall2 (fun e x => en_tag e = i_tag x /\ slice (pre ++ bodies l ++ post) (en_off e) (en_len e) = i_body x /\ off <= en_off e /\ en_off e + en_len e <= off + size (bodies l)) (entries off l) l.
Proof.
  induction l as [|x l IH]; intros off pre S post; [constructor|]. cbn [entries bodies]. pose proof (padded_size (i_body x)) as (P1 & P2 & _). pose proof (size_nonneg (bodies l)). pose proof (size_nonneg (i_body x)). constructor.
  - cbn [en_tag en_off en_len]. split; [reflexivity|]. split; [|rewrite size_app; lia]. unfold padded. rewrite <- !app_assoc, <- S. apply slice_mid.
  - specialize (IH (off + size (padded (i_body x))) (pre ++ padded (i_body x)) ltac:(rewrite size_app; lia) post). rewrite <- !app_assoc in IH. rewrite <- !app_assoc. rewrite size_app. eapply Forall2_weaken; [|exact IH]. cbn beta. intros e y (A & B & C & D). split; [exact A|]. split; [exact B|]. lia.
Qed.
Lemma entries_aligned l : forall off, off mod 4 = 0 -> Forall (fun e => en_off e mod 4 = 0) (entries off l).
Proof. induction l as [|x l IH]; intros off O; [constructor|]. cbn [entries]. constructor; [exact O|]. apply IH. pose proof (padded_size (i_body x)) as (_ & _ & P). rewrite Z.add_mod, O, P by lia. reflexivity. Qed.
(** What is found by a name *)
Definition found (l : list item) (s : list Z) : option item := find (fun x => i_tag x =? word s 0) l.
Lemma found_entry (R : entry -> item -> Prop) s es l : Forall2 R es l -> (forall e x, R e x -> en_tag e = i_tag x) -> match found l s with Some x => exists e, find (named s) es = Some e /\ R e x | None => find (named s) es = None end.
Proof.
  intros F H. induction F as [|e x es l A F IH]; [reflexivity|]. unfold found in *. cbn [find]. unfold named at 1 3. rewrite (H e x A). destruct (i_tag x =? word s 0); [exists e; split; [reflexivity|exact A]|exact IH].
Qed.
Section File.
Variables (h : list Z) (l : list item).
Notation n := (Z.of_nat (length l)).
Notation out := (h ++ dirb (12 + 16 * n) l ++ bodies l).
Hypothesis (HS : size h = 12) (HN : at16 h 4 = n) (HB : 12 + 16 * n + size (bodies l) < 2 ^ 32) (HT : Forall (fun x => in_word (i_tag x) /\ in_word (i_sum x)) l).
Lemma file_dir : dir out = entries (12 + 16 * n) l.
Proof.
  unfold dir. replace (at16 out 4) with n. 2:{ rewrite <- HN. unfold at16. rewrite !byte_app_l by lia. reflexivity. } rewrite Nat2Z.id. apply dir_read; [exact HS|lia|exact HB|exact HT].
Qed.
Lemma file_entries : Forall2 (fun e x => en_tag e = i_tag x /\ slice out (en_off e) (en_len e) = i_body x /\ 12 + 16 * n <= en_off e /\ en_off e + en_len e <= 12 + 16 * n + size (bodies l)) (entries (12 + 16 * n) l) l.
Proof.
  pose proof (entries_in l (12 + 16 * n) (h ++ dirb (12 + 16 * n) l)) as E. rewrite size_app, HS, dirb_size in E. specialize (E eq_refl []). rewrite app_nil_r, <- app_assoc in E. exact E.
Qed.
Lemma file_table s : table out s = match found l s with Some x => i_body x | None => [] end.
Proof.
  unfold table. rewrite file_dir. pose proof (found_entry _ s _ _ file_entries (fun e x H => proj1 H)) as F. destruct (found l s) as [x|]; [|rewrite F; reflexivity]. destruct F as (e & -> & _ & E & _). exact E.
Qed.
Lemma file_inside e : In e (dir out) -> en_off e mod 4 = 0 /\ en_off e + en_len e <= size out.
Proof.
  rewrite file_dir. intros I. split.
  - assert (A : (12 + 16 * n) mod 4 = 0) by (replace (12 + 16 * n) with ((3 + 4 * n) * 4) by lia; apply Z_mod_mult). exact (proj1 (Forall_forall _ _) (entries_aligned l _ A) e I).
  - destruct (Forall2_left _ _ _ e file_entries I) as (x & _ & _ & _ & D). rewrite !size_app, HS, dirb_size. lia.
Qed.
Lemma file_tags : map en_tag (dir out) = map i_tag l.
Proof. rewrite file_dir. generalize (12 + 16 * n). clear. induction l as [|x r IH]; intros off; [reflexivity|]. cbn [entries map en_tag]. f_equal. apply IH. Qed.
End File.

(** ** The checksum of the file *)
Definition put4 (w c : list Z) : list Z := firstn 4 c ++ w ++ skipn 8 c.
Definition upd (w : list Z) (x : item) : item := if i_tag x =? t_head then (i_tag x, i_sum x, put4 w (i_body x)) else x.
Lemma put4_size w c : size w = 4 -> 8 <= size c -> size (put4 w c) = size c.
Proof. unfold put4, size. rewrite !app_length, firstn_length, skipn_length. lia. Qed.
Lemma put4_byte w c o : size w = 4 -> 8 <= size c -> 0 <= o -> o < 4 \/ 8 <= o -> byte (put4 w c) o = byte c o.
Proof.
  intros W C O H. unfold put4. assert (S4 : size (firstn 4 c) = 4) by (unfold size in *; rewrite firstn_length; lia). destruct H as [H|H].
  - rewrite byte_app_l by lia. unfold byte. apply nth_firstn. lia.
  - rewrite byte_app_r by lia. rewrite byte_app_r by lia. rewrite S4, W. unfold byte. rewrite nth_skipn. f_equal. lia.
Qed.
Fixpoint head_at (off : Z) (l : list item) : option Z :=
  match l with [] => None | x :: r => match head_at (off + size (padded (i_body x))) r with Some o => Some o | None => if i_tag x =? t_head then Some off else None end end.
Lemma head_none l : forall off, ~ In t_head (map i_tag l) -> head_at off l = None.
Proof. induction l as [|x l IH]; intros off N; [reflexivity|]. cbn [head_at map In] in *. rewrite IH by tauto. destruct (Z.eqb_spec (i_tag x) t_head); [tauto|reflexivity]. Qed.
Lemma head_some l : forall off o, head_at off l = Some o -> In t_head (map i_tag l).
Proof.
  induction l as [|x l IH]; intros off o E; [discriminate|]. cbn [head_at map In] in *. destruct (head_at _ l) as [o'|] eqn:E'; [right; eapply IH; exact E'|]. destruct (Z.eqb_spec (i_tag x) t_head) as [->|]; [left; reflexivity|discriminate].
Qed.
Lemma upd_none w l : ~ In t_head (map i_tag l) -> map (upd w) l = l.
Proof. induction l as [|x l IH]; intros N; [reflexivity|]. cbn [map In] in *. rewrite IH by tauto. unfold upd. destruct (Z.eqb_spec (i_tag x) t_head); [tauto|reflexivity]. Qed.
Lemma padded_put w c : size w = 4 -> 8 <= size c -> padded (put4 w c) = firstn 4 c ++ w ++ skipn 8 (padded c).
Proof.
  intros W C. unfold padded. change (len (put4 w c)) with (size (put4 w c)). change (len c) with (size c). rewrite put4_size by assumption. unfold put4. rewrite <- !app_assoc. do 2 f_equal. rewrite skipn_app. replace (8 - length c)%nat with 0%nat by (unfold size in C; lia). reflexivity.
Qed.
Lemma patch_head w l : size w = 4 -> NoDup (map i_tag l) -> Forall (fun x => i_tag x = t_head -> 8 <= size (i_body x)) l -> forall pre o, head_at (size pre) l = Some o -> patch (pre ++ bodies l) (o + 4) w = Ok (pre ++ bodies (map (upd w) l)).
Proof.
  intros W. induction l as [|x l IH]; intros N F pre o E; [discriminate|]. cbn [map] in N. apply NoDup_cons_iff in N as [NI N]. inversion F as [|y z F1 F2]; subst. cbn [head_at] in E. cbn [bodies map].
  destruct (head_at (size pre + size (padded (i_body x))) l) as [o'|] eqn:E'.
  - injection E as ->. pose proof (head_some _ _ _ E') as HI. assert (NX : i_tag x <> t_head) by (intros X; apply NI; rewrite X; exact HI). rewrite <- size_app in E'. specialize (IH N F2 _ _ E'). rewrite <- !app_assoc in IH. rewrite IH. unfold upd at 2. destruct (Z.eqb_spec (i_tag x) t_head); [contradiction|]. reflexivity.
  - destruct (Z.eqb_spec (i_tag x) t_head) as [X|]; [|discriminate]. injection E as <-. specialize (F1 X). rewrite upd_none by (rewrite <- X; exact NI). assert (U : i_body (upd w x) = put4 w (i_body x)) by (unfold upd; rewrite X, Z.eqb_refl; reflexivity). rewrite U, (padded_put w (i_body x) W F1). clear U.
    pose proof (padded_size (i_body x)) as (P1 & _). pose proof (size_nonneg (bodies l)). pose proof (size_nonneg pre). unfold i_body in *. unfold patch. change (len w) with (size w). change (len (pre ++ padded (snd x) ++ bodies l)) with (size (pre ++ padded (snd x) ++ bodies l)). rewrite !size_app. destruct (_ <=? _) eqn:LE; [clear LE|lia]. f_equal.
    replace (Z.to_nat (size pre + 4)) with (length pre + 4)%nat by (unfold size; lia). rewrite firstn_app_2. rewrite <- !app_assoc. f_equal.
    assert (LL : (8 <= length (padded (snd x)))%nat) by (unfold size in *; lia). rewrite firstn_app. replace (4 - length (padded (snd x)))%nat with 0%nat by lia. rewrite firstn_O, app_nil_r.
    assert (F4 : firstn 4 (padded (snd x)) = firstn 4 (snd x)). { unfold padded. rewrite firstn_app. replace (4 - length (snd x))%nat with 0%nat by (unfold size in F1; lia). rewrite firstn_O, app_nil_r. reflexivity. } rewrite F4. f_equal. f_equal.
    replace (length pre + 4 + length w)%nat with (length pre + 8)%nat by (unfold size in W; lia). rewrite skipn_app, skipn_all2 by lia. replace (length pre + 8 - length pre)%nat with 8%nat by lia. cbn [app]. rewrite skipn_app. replace (8 - length (padded (snd x)))%nat with 0%nat by lia. reflexivity.
Qed.
Lemma upd_dirb w l : size w = 4 -> Forall (fun x => i_tag x = t_head -> 8 <= size (i_body x)) l -> forall off, dirb off (map (upd w) l) = dirb off l /\ size (bodies (map (upd w) l)) = size (bodies l).
Proof.
  intros W. induction l as [|x l IH]; intros F off; [split; reflexivity|]. inversion F as [|y z F1 F2]; subst. cbn [map dirb bodies]. rewrite !size_app.
  assert (T : i_tag (upd w x) = i_tag x /\ i_sum (upd w x) = i_sum x /\ size (i_body (upd w x)) = size (i_body x) /\ size (padded (i_body (upd w x))) = size (padded (i_body x))).
  { unfold upd. destruct (Z.eqb_spec (i_tag x) t_head) as [X|X]; [|repeat split; reflexivity]. specialize (F1 X). cbn [i_tag i_sum i_body fst snd]. split; [reflexivity|]. split; [reflexivity|]. pose proof (put4_size w (snd x) W F1) as P. unfold i_body in *. split; [exact P|]. unfold padded. change (len (put4 w (snd x))) with (size (put4 w (snd x))). change (len (snd x)) with (size (snd x)). rewrite !size_app, P. reflexivity. }
  destruct T as (-> & -> & -> & ->). destruct (IH F2 (off + size (padded (i_body x)))) as [-> ->]. split; reflexivity.
Qed.
Lemma upd_found w l s : found (map (upd w) l) s = option_map (upd w) (found l s).
Proof. unfold found. induction l as [|x l IH]; [reflexivity|]. cbn [map find]. assert (T : i_tag (upd w x) = i_tag x) by (unfold upd; destruct (_ =? _); reflexivity). rewrite T. destruct (i_tag x =? word s 0); [reflexivity|exact IH]. Qed.
Lemma upd_tags w l : map i_tag (map (upd w) l) = map i_tag l.
Proof. rewrite map_map. apply map_ext. intros x. unfold upd. destruct (_ =? _); reflexivity. Qed.
