(** Fonts to try, a check that they are valid, and the header of every subset. *)
From Coq Require Import Lia String.
From Verif Require Import Base ChainProofs TtfModel TtfSpec TtfReadProofs TtfLoadProofs TtfOrderProofs TtfLayoutProofs TtfWriteProofs TtfSafeProofs.
Local Open Scope Z_scope.

(** ** A check of valid fonts *)
Fixpoint get_parts (fuel : nat) (g : list Z) (o : Z) : option (list (Z * Z)) :=
  match fuel with
  | O => None
  | S k => if o + 4 <=? size g then if flag (at16 g o) 32 then option_map (cons (o + 2, at16 g (o + 2))) (get_parts k g (o + part_size (at16 g o))) else Some [(o + 2, at16 g (o + 2))] else None
  end.
Lemma get_parts_ok fuel : forall g o l, get_parts fuel g o = Some l -> parts g o l.
Proof.
  induction fuel as [|k IH]; intros g o l E; [discriminate|]. cbn [get_parts] in E. destruct (o + 4 <=? size g) eqn:B; [|discriminate]. apply Z.leb_le in B. destruct (flag (at16 g o) 32) eqn:F.
  - destruct (get_parts k g (o + part_size (at16 g o))) as [r|] eqn:R; [|discriminate]. injection E as <-. apply P_more; [exact B|exact F|apply IH; exact R].
  - injection E as <-. apply P_last; assumption.
Qed.
Fixpoint nodupb (l : list Z) : bool := match l with [] => true | x :: r => negb (existsb (Z.eqb x) r) && nodupb r end.
Lemma nodupb_ok l : nodupb l = true -> NoDup l.
Proof.
  induction l as [|x l IH]; intros E; [constructor|]. cbn [nodupb] in E. apply andb_true_iff in E as [E1 E2]. constructor; [|apply IH; exact E2]. intros I. apply negb_true_iff in E1. assert (X : existsb (Z.eqb x) l = true) by (apply existsb_exists; exists x; split; [exact I|apply Z.eqb_refl]). congruence.
Qed.
Definition each (n : Z) (p : Z -> bool) : bool := forallb (fun i => p (Z.of_nat i)) (seq 0 (Z.to_nat n)).
Lemma each_ok n p : each n p = true -> forall i, 0 <= i < n -> p i = true.
Proof. intros E i H. unfold each in E. rewrite forallb_forall in E. specialize (E (Z.to_nat i)). rewrite Z2Nat.id in E by lia. apply E. apply in_seq. lia. Qed.
Definition req : list (list Z) := [bs "head"; bs "hhea"; bs "loca"; bs "maxp"; bs "glyf"; bs "hmtx"].
Definition validb (f : list Z) : bool :=
  bytes_okb f && (size f <? 2 ^ 28) && (12 + 16 * at16 f 4 <=? size f) && nodupb (map en_tag (dir f)) && forallb (fun e => en_off e + en_len e <=? size f) (dir f) &&
  forallb (fun s => existsb (named s) (dir f)) req && (54 <=? size (table f (bs "head"))) && (6 <=? size (table f (bs "maxp"))) && (36 <=? size (table f (bs "hhea"))) && (1 <=? hcount f) && (hcount f <=? glyph_count f) &&
  ((if long_loca f then 4 else 2) * (glyph_count f + 1) <=? size (table f (bs "loca"))) && (4 * hcount f + 2 * (glyph_count f - hcount f) <=? size (table f (bs "hmtx"))) &&
  each (glyph_count f) (fun i => loca f i <=? loca f (i + 1)) && (loca f (glyph_count f) <=? size (table f (bs "glyf"))) &&
  each (glyph_count f) (fun i => (size (glyph f i) =? 0) || (2 <=? size (glyph f i))) &&
  each (glyph_count f) (fun i => negb (compound (glyph f i)) || match get_parts (length f) (glyph f i) 10 with Some l => forallb (fun p => snd p <? glyph_count f) l | None => false end).
Lemma valid_check f : validb f = true -> valid f.
Proof.
  unfold validb. intros E. do 16 (apply andb_true_iff in E as [E ?]). constructor; try (apply Z.leb_le; assumption).
  - apply bytes_okb_iff. assumption.
  - apply Z.ltb_lt. assumption.
  - apply nodupb_ok. assumption.
  - intros e I. rewrite forallb_forall in H11. apply Z.leb_le. apply H11. exact I.
  - intros s I. rewrite forallb_forall in H10. specialize (H10 s I). apply existsb_exists in H10. exact H10.
  - split; apply Z.leb_le; assumption.
  - intros i R. apply Z.leb_le. exact (each_ok _ _ H2 i R).
  - intros i R. pose proof (each_ok _ _ H0 i R) as X. apply orb_true_iff in X as [X|X]; [left|right; apply Z.leb_le; exact X]. apply Z.eqb_eq in X. unfold size in X. destruct (glyph f i); [reflexivity|cbn [length] in X; lia].
  - intros i R C. pose proof (each_ok _ _ H i R) as X. cbn beta in X. rewrite C in X. cbn [negb orb] in X. destruct (get_parts (length f) (glyph f i) 10) as [l|] eqn:P; [|discriminate]. exists l. split; [exact (get_parts_ok _ _ _ _ P)|]. apply Forall_forall. intros p I. rewrite forallb_forall in X. apply Z.ltb_lt. apply X. exact I.
Qed.
Lemma empty_check f : forallb (fun e => negb (named (bs "glyf") e) || each (glyph_count f) (fun i => negb (size (glyph f i) =? 0) || ((en_off e + loca f i + 2 <=? size f) && (at16 f (en_off e + loca f i) <? 32768)))) (dir f) = true -> empty_ok f.
Proof.
  intros E e i I N R G. rewrite forallb_forall in E. specialize (E e I). rewrite N in E. cbn [negb orb] in E. pose proof (each_ok _ _ E i R) as X. cbn beta in X. rewrite G in X. change (negb (size [] =? 0)) with false in X. cbn [orb] in X. apply andb_true_iff in X as [A B]. split; [apply Z.leb_le; exact A|apply Z.ltb_lt; exact B].
Qed.
Lemma compound_needs f gids g : forall p : Z -> bool, p 0 = true -> forallb p gids = true -> (forall x l q, p x = true -> parts (glyph f x) 10 l -> In q l -> compound (glyph f x) = true -> p (snd q) = true) -> needed f gids g -> p g = true.
Proof.
  intros p P0 PG PC N. induction N as [|g I|g l q c N IH C P I]; [exact P0|rewrite forallb_forall in PG; apply PG; exact I|]. apply (PC g l (q, c) IH P I C).
Qed.
(** All glyphs needed are below a number, by a search of the glyphs *)
Definition closedb (f : list Z) (p : Z -> bool) : bool := each (glyph_count f) (fun x => negb (p x) || negb (compound (glyph f x)) || match get_parts (length f) (glyph f x) 10 with Some l => forallb (fun q => p (snd q)) l | None => false end).
Lemma closed_check f p gids : (forall x, p x = true -> 0 <= x < glyph_count f) -> closedb f p = true -> p 0 = true -> forallb p gids = true -> forall g, needed f gids g -> p g = true.
Proof.
  intros R C P0 PG g N. apply (compound_needs f gids g p P0 PG); [|exact N]. intros x l q PX P I CX. pose proof (each_ok _ _ C x (R x PX)) as X. cbn beta in X. rewrite PX, CX in X. cbn [negb orb] in X. destruct (get_parts (length f) (glyph f x) 10) as [l'|] eqn:E; [|discriminate]. apply get_parts_ok in E. rewrite (parts_same _ _ _ _ P E) in I. rewrite forallb_forall in X. exact (X q I).
Qed.

(** ** The header of every subset *)
Lemma head_after f fn ld ts : forall off d x o, write_all f fn ld off ts = Ok (d, x, Some o) -> off <= o.
Proof.
  induction ts as [|t ts IH]; intros off d x o E; [discriminate|]. cbn [write_all] in E. apply bind_ok in E as (b & _ & E). apply bind_ok in E as ([[d1 x1] h1] & E1 & E). injection E as _ _ E. assert (0 <= len (padded b)) by (unfold len; lia). destruct h1 as [o1|]; [injection E as ->; apply IH in E1; lia|]. destruct (_ =? _); [injection E as <-; lia|discriminate].
Qed.
Theorem header_wrong f gids out : build_font f gids = Ok out -> ~ search_ok out.
Proof.
  intros E. unfold build_font in E. apply bind_ok in E as (fn & _ & E). apply bind_ok in E as (ld & _ & E). unfold write_tables in E. set (n := Z.of_nat (length (fn_tables fn))) in *. apply bind_ok in E as (h & EH & E). apply bind_ok in E as ([[d x] o] & EW & E). destruct o as [o|]; [|discriminate]. apply head_after in EW. assert (N0 : 0 <= n) by lia.
  unfold header in EH. destruct (2 ^ 16 <=? 2 ^ Z.log2_up n) eqn:L; [discriminate|]. apply Z.leb_gt in L. apply ok_inj in EH. set (b := h ++ d ++ x) in *. pose proof E as E'. apply patch_size in E' as [PS _]; [|lia]. destruct (patch_ok b (o + 4) (be32 (u32 (2981146554 - checksum b)))) as (b' & E2 & _ & O & _); [lia|exact PS|]. rewrite E in E2. injection E2 as <-.
  assert (SH : size h = 12) by (rewrite <- EH; reflexivity). assert (B : forall i, 0 <= i < 12 -> byte out i = byte h i) by (intros i I; rewrite O by lia; unfold b; apply byte_app_l; lia).
  assert (ES : Z.log2_up n < 16) by (apply (Z.pow_lt_mono_r_iff 2); [lia|lia|exact L]). assert (NU : n <= 2 ^ 16). { destruct (Z_le_gt_dec n 1); [lia|]. pose proof (Z.log2_up_spec n ltac:(lia)) as [_ U]. assert (2 ^ Z.log2_up n <= 2 ^ 16) by (apply Z.pow_le_mono_r; lia). lia. }
  assert (N16 : n < 2 ^ 16). { destruct (Z.eq_dec n (2 ^ 16)) as [X|]; [|lia]. rewrite X in L. vm_compute in L. discriminate. }
  assert (A4 : at16 out 4 = n). { unfold at16. rewrite !B by lia. rewrite <- EH. change (byte (be32 65536 ++ be16 (u16 n) ++ be16 (2 ^ Z.log2_up n) ++ be16 (Z.log2_up n) ++ be16 (u16 (16 * n - 2 ^ Z.log2_up n))) 4) with (u16 n / 256 mod 256). change (byte (be32 65536 ++ be16 (u16 n) ++ be16 (2 ^ Z.log2_up n) ++ be16 (Z.log2_up n) ++ be16 (u16 (16 * n - 2 ^ Z.log2_up n))) (4 + 1)) with (u16 n mod 256). unfold u16. rewrite (Z.mod_small n) by lia. revert N0 N16. generalize n. clear. intros z A B. Z.div_mod_to_equations. lia. }
  assert (A6 : at16 out 6 = 2 ^ Z.log2_up n). { unfold at16. rewrite !B by lia. rewrite <- EH. change (byte (be32 65536 ++ be16 (u16 n) ++ be16 (2 ^ Z.log2_up n) ++ be16 (Z.log2_up n) ++ be16 (u16 (16 * n - 2 ^ Z.log2_up n))) 6) with (2 ^ Z.log2_up n / 256 mod 256). change (byte (be32 65536 ++ be16 (u16 n) ++ be16 (2 ^ Z.log2_up n) ++ be16 (Z.log2_up n) ++ be16 (u16 (16 * n - 2 ^ Z.log2_up n))) (6 + 1)) with (2 ^ Z.log2_up n mod 256). assert (0 <= 2 ^ Z.log2_up n) by (apply Z.pow_nonneg; lia). revert L H. generalize (2 ^ Z.log2_up n). clear. intros z L H. Z.div_mod_to_equations. lia. }
  intros [S _]. cbn zeta in S. rewrite A4, A6 in S. pose proof (Z.le_log2_up_succ_log2 n) as LU. pose proof (Z.log2_nonneg n). assert (X : 2 ^ Z.log2_up n <= 2 ^ Z.succ (Z.log2 n)) by (apply Z.pow_le_mono_r; lia). rewrite Z.pow_succ_r in X by lia. assert (0 < 2 ^ Z.log2 n) by (apply Z.pow_pos_nonneg; lia). lia.
Qed.

(** ** Fonts *)
Fixpoint file_dir_ (off : Z) (l : list (list Z * list Z)) : list Z := match l with [] => [] | (t, b) :: r => t ++ be32 0 ++ be32 off ++ be32 (size b) ++ file_dir_ (off + size b) r end.
Definition file (l : list (list Z * list Z)) : list Z := be32 65536 ++ be16 (Z.of_nat (length l)) ++ [0; 0; 0; 0; 0; 0] ++ file_dir_ (12 + 16 * Z.of_nat (length l)) l ++ concat (map snd l).
Definition head_ (long : Z) : list Z := [0; 1; 0; 0; 0; 1; 0; 7; 8; 8; 8; 8] ++ repeat 5 38 ++ [0; long; 0; 0].
Definition hhea_ (n : Z) : list Z := repeat 3 34 ++ be16 n.
Definition maxp_ (n : Z) : list Z := be32 65536 ++ be16 n ++ [9; 9].
(** Glyph 1 is of the glyphs 3 and 2 *)
Definition g_pair : list Z := [255; 255] ++ repeat 0 8 ++ [0; 32; 0; 3; 1; 1] ++ [0; 0; 0; 2; 4; 4].
Definition glyf_ : list Z := [0; 1; 7; 7] ++ g_pair ++ [0; 1; 2; 2] ++ [0; 1; 3; 3; 3; 3].
Definition loca_ : list Z := be16 0 ++ be16 2 ++ be16 13 ++ be16 15 ++ be16 18.
Definition hmtx4 : list Z := [0; 10; 0; 0; 0; 11; 0; 1; 0; 12; 0; 2; 0; 13; 0; 3].
Definition font4 : list Z := file [(bs "cvt ", [1; 2; 3; 4]); (bs "glyf", glyf_); (bs "head", head_ 0); (bs "hhea", hhea_ 4); (bs "hmtx", hmtx4); (bs "loca", loca_); (bs "maxp", maxp_ 4); (bs "name", [1; 1; 1; 1])].
(** Only two full metrics *)
Definition font2 : list Z := file [(bs "glyf", glyf_); (bs "head", head_ 0); (bs "hhea", hhea_ 2); (bs "hmtx", [0; 10; 0; 0; 0; 11; 0; 1; 0; 2; 0; 3]); (bs "loca", loca_); (bs "maxp", maxp_ 4)].
(** The last glyph is empty, and glyf is the last table *)
Definition font_empty : list Z := file [(bs "head", head_ 0); (bs "hhea", hhea_ 2); (bs "hmtx", [0; 10; 0; 0; 0; 11; 0; 1]); (bs "loca", be16 0 ++ be16 2 ++ be16 2); (bs "maxp", maxp_ 2); (bs "glyf", [0; 1; 7; 7])].
(** Glyph 1 is empty, and what follows is glyph 2, which is of glyph 3 *)
Definition font_next : list Z := file [(bs "glyf", [0; 1; 7; 7] ++ [255; 255] ++ repeat 0 8 ++ [0; 0; 0; 3; 1; 1] ++ [0; 1; 6; 6]); (bs "head", head_ 0); (bs "hhea", hhea_ 4); (bs "hmtx", hmtx4); (bs "loca", be16 0 ++ be16 2 ++ be16 2 ++ be16 10 ++ be16 12); (bs "maxp", maxp_ 4)].
(** Not valid: a head table of 6 bytes, components outside the glyph, no hmtx *)
Definition font_head : list Z := file [(bs "glyf", [0; 1; 7; 7]); (bs "hhea", hhea_ 1); (bs "hmtx", [0; 10; 0; 0]); (bs "loca", be16 0 ++ be16 2); (bs "maxp", maxp_ 1); (bs "head", [0; 1; 0; 0; 0; 1])] ++ repeat 0 48.
Definition font_outside : list Z := file [(bs "glyf", [0; 1; 7; 7] ++ g_pair ++ [0; 1; 2; 2] ++ [0; 1; 3; 3; 3; 3]); (bs "head", head_ 0); (bs "hhea", hhea_ 4); (bs "hmtx", hmtx4); (bs "loca", be16 0 ++ be16 2 ++ be16 5 ++ be16 15 ++ be16 18); (bs "maxp", maxp_ 4)].
Definition font_none : list Z := file [(bs "glyf", [0; 1; 7; 7]); (bs "head", head_ 0); (bs "hhea", hhea_ 1); (bs "loca", be16 0 ++ be16 2); (bs "maxp", maxp_ 1)].
Definition built (f gids : list Z) : list Z := match build_font f gids with Ok b => b | _ => [] end.
Lemma font4_valid : valid font4. Proof. apply valid_check. vm_compute. reflexivity. Qed.
Lemma font4_empty : empty_ok font4. Proof. apply empty_check. vm_compute. reflexivity. Qed.
Lemma font2_valid : valid font2. Proof. apply valid_check. vm_compute. reflexivity. Qed.
Lemma font2_empty : empty_ok font2. Proof. apply empty_check. vm_compute. reflexivity. Qed.
Lemma font_empty_valid : valid font_empty. Proof. apply valid_check. vm_compute. reflexivity. Qed.
Lemma font_next_valid : valid font_next. Proof. apply valid_check. vm_compute. reflexivity. Qed.
