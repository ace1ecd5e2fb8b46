(** Reading CMaps: the sections and the whole text. *)
From Coq Require Import Lia String Permutation.
From Verif Require Import Base TokModel ReadEq WriteModel DictProofs TokProofs LexProofs ObjSpec ParseProofs TextModel TextSpec TextProofs CodeModel CodeSpec CodeProofs CodePropLemmas CMapModel CMapSpec CMapProofs.
Local Open Scope Z_scope.

Definition note (l : code_limits) (c : code) : code_limits := mk_cl (if c_size c <? cl_min l then c_size c else cl_min l) (if cl_max l <? c_size c then c_size c else cl_max l).
Definition notes (l : code_limits) (cs : list code) : code_limits := fold_left note cs l.

Lemma hex_pairs_bytes n : forall ds, (length ds <= n)%nat -> Forall (fun v => 0 <= v < 16) ds -> is_bytes (hex_pairs ds).
Proof.
  induction n as [|n IH]; intros ds L F; destruct ds as [|h [|l r]]; try (cbn [length] in L; lia); cbn [hex_pairs]; [constructor|constructor| |].
  - constructor; [|constructor]. inversion F; subst. lia.
  - constructor; [|apply IH; [cbn [length] in L; lia|inversion F as [|? ? ? F2]; subst; inversion F2; assumption]]. inversion F as [|? ? ? F2]; subst. inversion F2; subst. lia.
Qed.
Lemma hex_meaning_is w : is_bytes (hex_meaning w).
Proof.
  unfold hex_meaning. apply (hex_pairs_bytes _ _ (le_n _)). apply Forall_forall. intros v I. apply in_flat_map in I as (c & _ & I). destruct (hex_val c) as [x|] eqn:E; [|destruct I]. destruct I as [<-|[]]. exact (hex_val_range c x E).
Qed.
Lemma get_word x l : is_code x -> get_code (OStr true (hex_meaning (snd x))) l = Ok (word_code x, note l (word_code x)).
Proof.
  intros [_ L]. pose proof (hex_meaning_is (snd x)) as B. unfold get_code, code_of_variant. rewrite (proj2 (Z.ltb_ge 4 _)) by lia. cbn [bind]. rewrite sum_bytes_number by (try assumption; lia). rewrite Z.pow_0_r, Z.mul_1_r. reflexivity.
Qed.
Lemma seq_word key x k : spaced_ok x -> read_sequence key (mk_tst [] (spaced_text x ++ k)) = Ok (Some (OStr true (hex_meaning (snd x))), mk_tst [] k).
Proof. intros [B W]. unfold read_sequence, spaced_text. rewrite <- app_assoc. cbn [app]. rewrite <- app_assoc. cbn [app]. rewrite ps_hex by assumption. reflexivity. Qed.
Lemma var_word x k : spaced_ok x -> ps_variant (mk_tst [] (spaced_text x ++ k)) = Ok (OStr true (hex_meaning (snd x)), mk_tst [] k).
Proof. intros [B W]. unfold spaced_text. rewrite <- app_assoc. cbn [app]. rewrite <- app_assoc. cbn [app]. apply var_hex; assumption. Qed.
Lemma seq_end t b k : blank b -> keyword t -> stops k -> read_sequence t (mk_tst [] (b ++ t ++ k)) = Ok (None, mk_tst [] k).
Proof. intros B K ST. unfold read_sequence. rewrite ps_key by assumption. cbn [bind]. rewrite beq_refl. reflexivity. Qed.
Ltac keyword_tac := split; [discriminate|]; split; [repeat constructor|]; split; [apply Nat.leb_le; reflexivity|reflexivity].
Lemma key_codespace : keyword (bs "endcodespacerange"). Proof. keyword_tac. Qed.
Lemma key_bfrange : keyword (bs "endbfrange"). Proof. keyword_tac. Qed.
Lemma key_bfchar : keyword (bs "endbfchar"). Proof. keyword_tac. Qed.

(** ** Code space ranges *)
Lemma codespace_reads rs : forall f m l b k, Forall both_codes rs -> blank b -> stops k -> (length rs < f)%nat ->
  codespace f (mk_cs m l (mk_tst [] (flat_map char_text rs ++ b ++ bs "endcodespacerange" ++ k))) = Ok (mk_cs m (notes l (flat_map codes_of rs)) (mk_tst [] k)).
Proof.
  induction rs as [|[x y] rs IH]; intros f m l b k F B ST L; (destruct f as [|f]; [cbn [length] in L; lia|]); cbn [codespace cs_tok cs_map cs_lim].
  - cbn [flat_map app]. rewrite seq_end by (assumption || exact key_codespace). reflexivity.
  - assert (C : both_codes (x, y)) by (inversion F; assumption). assert (F' : Forall both_codes rs) by (inversion F; assumption). destruct C as [CX CY]. cbn [fst snd] in CX, CY.
    cbn [flat_map]. unfold char_text at 1. cbn [fst snd]. rewrite <- !app_assoc. rewrite seq_word by (apply CX). cbn [bind]. rewrite get_word by exact CX. cbn [bind]. rewrite var_word by (apply CY). cbn [bind]. rewrite get_word by exact CY. cbn [bind].
    rewrite IH by (try assumption; cbn [length] in L; lia). reflexivity.
Qed.

(** ** Pushing *)
Lemma push_ok m ps c p : reach m ps -> c_size c <> 0 -> p <> [] -> exists m', push_mapping m c p = Ok m' /\ push m c p = Ok m' /\ reach m' (ps ++ [(c, p)]).
Proof.
  intros R N P. destruct p as [|x p]; [contradiction|]. unfold push_mapping. assert (E : exists m', push m c (x :: p) = Ok m').
  { unfold push. rewrite (proj2 (Z.eqb_neq _ _)) by exact N. eauto. }
  destruct E as (m' & E). exists m'. split; [exact E|]. split; [exact E|]. exact (R_push m ps c (x :: p) m' R E).
Qed.
Lemma push_range_ok lo base back size : size <> 0 -> 0 <= lo -> 0 <= back -> forall n m ps i, reach m ps -> 0 <= i -> lo + i + Z.of_nat n <= 4294967296 -> back + i + Z.of_nat n <= 4294967296 ->
  exists m', push_range m lo base back size i n = Ok m' /\ reach m' (ps ++ map (fun j => (mk_code (lo + j) size, base ++ [back + j])) (upto i n)).
Proof.
  intros N L0 B0. induction n as [|n IH]; intros m ps i R I L B; cbn [push_range upto map].
  - exists m. rewrite app_nil_r. auto.
  - unfold u32. change (2 ^ 32) with 4294967296. rewrite !Z.mod_small by lia. destruct (push_ok m ps (mk_code (lo + i) size) (base ++ [back + i]) R N ltac:(intros E; symmetry in E; exact (app_cons_not_nil _ _ _ E))) as (m1 & E1 & _ & R1).
    rewrite E1. cbn [bind]. destruct (IH m1 _ (i + 1) R1 ltac:(lia) ltac:(lia) ltac:(lia)) as (m' & E & R'). exists m'. split; [exact E|]. rewrite <- app_assoc in R'. exact R'.
Qed.
Lemma push_array_ok lo size : size <> 0 -> 0 <= lo -> forall xs texts, Forall2 (fun x cps => is_text x cps /\ cps <> []) xs texts -> forall m ps i, reach m ps -> 0 <= i -> lo + i + Z.of_nat (length xs) <= 4294967296 -> 
  exists m', push_array m lo size i (i + Z.of_nat (length xs)) (map (fun x => OStr true (hex_meaning (snd x))) xs) = Ok m' /\
  reach m' (ps ++ map (fun x => (mk_code (lo + fst x) size, snd x)) (combine (upto i (length texts)) texts)).
Proof.
  intros N L0 xs texts F. induction F as [|x cps xs texts [X X0] F IH]; intros m ps i R I L; cbn [length].
  - exists m. cbn [map push_array combine upto]. rewrite Z.add_0_r, Z.ltb_irrefl, app_nil_r. auto.
  - cbn [map push_array]. rewrite (proj2 (Z.ltb_lt i _)) by lia. destruct X as (_ & SC & E). unfold string_mapping. rewrite E, read_be_text by exact SC. cbn [bind]. rewrite TextProofs.points_text by exact SC. cbn [bind].
    unfold u32. change (2 ^ 32) with 4294967296. cbn [length] in L. rewrite Z.mod_small by lia. destruct (push_ok m ps (mk_code (lo + i) size) cps R N X0) as (m1 & E1 & _ & R1). rewrite E1. cbn [bind].
    destruct (IH m1 _ (i + 1) R1 ltac:(lia) ltac:(lia)) as (m' & E2 & R'). exists m'. replace (i + Z.of_nat (S (length xs))) with (i + 1 + Z.of_nat (length xs)) by lia. split; [exact E2|].
    rewrite <- app_assoc in R'. exact R'.
Qed.

(** ** Arrays *)
Lemma array_reads d : (d < 256)%nat -> forall xs f acc b k, Forall spaced_ok xs -> blank b -> (length xs + 3 <= f)%nat ->
  read_array ps_params f d acc (mk_tst [] (flat_map spaced_text xs ++ b ++ 93 :: k)) = Ok (acc ++ map (fun x => OStr true (hex_meaning (snd x))) xs, mk_tst [] k).
Proof.
  intros D. induction xs as [|x xs IH]; intros f acc b k F B L; (destruct f as [|f]; [lia|]); rewrite read_array_S; unfold next_token; cbn [tq tin].
  - cbn [flat_map app map]. rewrite tok_blank, (tok_delim1 _ 93 TRSq) by (assumption || reflexivity). rewrite app_nil_r. reflexivity.
  - assert (X : spaced_ok x) by (inversion F; assumption). assert (F' : Forall spaced_ok xs) by (inversion F; assumption). destruct X as [XB [W1 W2]].
    cbn [flat_map]. unfold spaced_text at 1. rewrite <- !app_assoc. cbn [app]. rewrite <- !app_assoc. cbn [app]. rewrite tok_blank, tok_angle by assumption. destruct f as [|f]; [cbn [length] in L; lia|].
    rewrite read_variant_S. assert (G : (rmax ps_params <? S d)%nat = false) by (apply Nat.ltb_ge; cbn [rmax ps_params]; change (Z.to_nat 256) with 256%nat; lia). rewrite G. cbn [determine bind].
    destruct f as [|f]; [cbn [length] in L; lia|]. rewrite read_data_S. cbn [tin tq]. rewrite read_hex_meaning by exact W1. cbn [bind]. rewrite IH by (try assumption; cbn [length] in L; lia). rewrite <- app_assoc. reflexivity.
Qed.
Lemma spaced_len x : (2 <= length (spaced_text x))%nat.
Proof. unfold spaced_text. rewrite app_length. cbn [length]. rewrite app_length. cbn [length]. lia. Qed.
Lemma words_len xs : (2 * length xs <= length (flat_map spaced_text xs))%nat.
Proof. induction xs as [|x xs IH]; [cbn; lia|]. cbn [flat_map length]. rewrite app_length. pose proof (spaced_len x). lia. Qed.
Lemma var_array b xs e k : blank b -> Forall spaced_ok xs -> blank e ->
  ps_variant (mk_tst [] ((b ++ 91 :: flat_map spaced_text xs ++ e ++ [93]) ++ k)) = Ok (OArr (map (fun x => OStr true (hex_meaning (snd x))) xs), mk_tst [] k).
Proof.
  intros B F E. unfold ps_variant, read_next, next_token. cbn [tq tin]. rewrite <- app_assoc. cbn [app]. rewrite tok_blank, (tok_delim1 _ 91 TLSq) by (assumption || reflexivity). rewrite <- !app_assoc. cbn [app].
  remember (ps_fuel _) as f eqn:EF. assert (L : (length xs + 5 <= f)%nat).
  { rewrite EF. unfold ps_fuel. cbn [tin tq]. rewrite app_length. cbn [length]. rewrite app_length. pose proof (words_len xs). lia. }
  clear EF. destruct f as [|f]; [lia|]. rewrite read_variant_S, pmax_1. cbn [determine bind]. destruct f as [|f]; [lia|]. rewrite read_data_S. rewrite array_reads by (try assumption; lia). reflexivity.
Qed.

(** ** Ranges and characters *)
Definition impl_pairs (lo hi : code) (p : list Z) : list (code * list Z) :=
  map (fun i => (mk_code (c_num lo + i) (c_size lo), (if (length p =? 1)%nat then [] else p) ++ [last p 0 + i])) (upto 0 (Z.to_nat (c_num hi - c_num lo + 1))).
Definition range_does (r : range) (ps : list (code * list Z)) : Prop :=
  range_codes r /\
  match r_dest r with
  | DOne x => exists p, is_text x p /\ p <> [] /\ last p 0 + (c_num (word_code (r_hi r)) - c_num (word_code (r_lo r))) <= 1114111 /\ ps = impl_pairs (word_code (r_lo r)) (word_code (r_hi r)) p
  | DMany b xs e => blank b /\ blank e /\ exists texts, Forall2 is_text xs texts /\ Forall (fun p => p <> []) texts /\
                    Z.of_nat (length texts) = c_num (word_code (r_hi r)) - c_num (word_code (r_lo r)) + 1 /\ ps = array_pairs (word_code (r_lo r)) texts
  end.
Lemma word_bound x : is_code x -> 0 <= c_num (word_code x) < 4294967296 /\ 1 <= c_size (word_code x) <= 4.
Proof.
  intros [_ L]. pose proof (number_bound _ (hex_meaning_is (snd x))) as B. cbn [word_code c_num c_size]. split; [|lia]. split; [lia|]. apply (Z.lt_le_trans _ _ _ (proj2 B)). change 4294967296 with (256 ^ 4). apply Z.pow_le_mono_r; lia.
Qed.
Lemma scalars_last p : scalars p -> p <> [] -> 0 <= last p 0.
Proof.
  intros F N. destruct (exists_last N) as (q & x & ->). rewrite last_last. unfold scalars in F. apply Forall_app in F as [_ F]. assert (scalar x) by (inversion F; assumption). unfold scalar in *. lia.
Qed.
Lemma is_text_mapping x p : is_text x p -> string_mapping (hex_meaning (snd x)) = Ok p.
Proof. intros (_ & SC & E). unfold string_mapping. rewrite E, read_be_text by exact SC. cbn [bind]. apply TextProofs.points_text. exact SC. Qed.
Lemma dest_reads r new m ps k : range_does r new -> reach m ps -> exists o m', ps_variant (mk_tst [] (dest_text (r_dest r) ++ k)) = Ok (o, mk_tst [] k) /\
  bf_destination m (c_num (word_code (r_lo r))) (c_size (word_code (r_lo r))) (u32 (c_num (word_code (r_hi r)) - c_num (word_code (r_lo r)) + 1)) o = Ok m' /\ reach m' (ps ++ new).
Proof.
  intros [(CL & CH & RB) D] R. destruct (word_bound _ CL) as [NL SL]. destruct (word_bound _ CH) as [NH SH]. assert (U : u32 (c_num (word_code (r_hi r)) - c_num (word_code (r_lo r)) + 1) = c_num (word_code (r_hi r)) - c_num (word_code (r_lo r)) + 1).
  { unfold u32. apply Z.mod_small. change (2 ^ 32) with 4294967296 in *. lia. }
  rewrite U. clear U. destruct (r_dest r) as [x|b xs e].
  - destruct D as (p & T & N & LB & ->). exists (OStr true (hex_meaning (snd x))). cbn [dest_text bf_destination]. rewrite (var_word _ _ (proj1 T)). rewrite (is_text_mapping x p T). cbn [bind]. unfold handle_range, impl_pairs. destruct p as [|a p]; [contradiction|].
    destruct T as (_ & SC & _). pose proof (scalars_last _ SC N).
    destruct (push_range_ok (c_num (word_code (r_lo r))) (if (length (a :: p) =? 1)%nat then [] else a :: p) (last (a :: p) 0) (c_size (word_code (r_lo r))) ltac:(lia) ltac:(lia) ltac:(lia) (Z.to_nat (c_num (word_code (r_hi r)) - c_num (word_code (r_lo r)) + 1)) m ps 0 R ltac:(lia) ltac:(lia) ltac:(lia)) as (m' & E & R').
    exists m'. auto.
  - destruct D as (B & E & texts & F & NE & LT & ->). exists (OArr (map (fun x => OStr true (hex_meaning (snd x))) xs)). cbn [dest_text].
    assert (FX : Forall spaced_ok xs).
    { clear - F. induction F as [|x p xs ps X F IH]; constructor; [exact (proj1 X)|exact IH]. }
    assert (LX : length xs = length texts) by (clear - F; induction F; [reflexivity|]; cbn [length]; congruence).
    assert (F2 : Forall2 (fun x cps => is_text x cps /\ cps <> []) xs texts).
    { clear - F NE. induction F as [|x p xs ps X F IH]; constructor; [split; [exact X|]; inversion NE; assumption|apply IH; inversion NE; assumption]. }
    rewrite var_array by assumption. cbn [bf_destination]. rewrite <- LT, <- LX.
    destruct (push_array_ok (c_num (word_code (r_lo r))) (c_size (word_code (r_lo r))) ltac:(lia) ltac:(lia) xs texts F2 m ps 0 R ltac:(lia) ltac:(lia)) as (m' & E1 & R1). exists m'. split; [reflexivity|]. split; [exact E1|exact R1].
Qed.
Lemma bfrange_reads rs news : Forall2 range_does rs news -> forall f m ps l b k, reach m ps -> blank b -> stops k -> (length rs < f)%nat ->
  exists m', bfrange f (mk_cs m l (mk_tst [] (flat_map range_text rs ++ b ++ bs "endbfrange" ++ k))) = Ok (mk_cs m' (notes l (flat_map range_two rs)) (mk_tst [] k)) /\ reach m' (ps ++ concat news).
Proof.
  induction 1 as [|r new rs news D F IH]; intros f m ps l b k R B ST L; (destruct f as [|f]; [cbn [length] in L; lia|]); cbn [bfrange cs_tok cs_map cs_lim].
  - cbn [flat_map app concat]. rewrite seq_end by (assumption || exact key_bfrange). exists m. rewrite app_nil_r. auto.
  - pose proof D as [(CL & CH & _) _]. cbn [flat_map]. unfold range_text at 1. rewrite <- !app_assoc. rewrite seq_word by (apply CL). cbn [bind]. rewrite get_word by exact CL. cbn [bind]. rewrite var_word by (apply CH). cbn [bind]. rewrite get_word by exact CH. cbn [bind].
    destruct (dest_reads r new m ps (flat_map range_text rs ++ b ++ bs "endbfrange" ++ k) D R) as (o & m1 & E1 & E2 & R1). rewrite E1. cbn [bind]. rewrite E2. cbn [bind].
    destruct (IH f m1 (ps ++ new) (note (note l (word_code (r_lo r))) (word_code (r_hi r))) b k R1 B ST ltac:(cbn [length] in L; lia)) as (m' & E & R'). exists m'. split; [exact E|]. cbn [concat]. rewrite app_assoc. exact R'.
Qed.
Lemma bfchar_reads xs news : Forall2 char_means xs news -> forall f m ps l b k, reach m ps -> blank b -> stops k -> (length xs < f)%nat ->
  exists m', bfchar f (mk_cs m l (mk_tst [] (flat_map char_text xs ++ b ++ bs "endbfchar" ++ k))) = Ok (mk_cs m' (notes l (flat_map char_one xs)) (mk_tst [] k)) /\ reach m' (ps ++ news).
Proof.
  induction 1 as [|x [c p] xs news D F IH]; intros f m ps l b k R B ST L; (destruct f as [|f]; [cbn [length] in L; lia|]); cbn [bfchar cs_tok cs_map cs_lim].
  - cbn [flat_map app]. rewrite seq_end by (assumption || exact key_bfchar). exists m. rewrite app_nil_r. auto.
  - destruct D as (C & T & N & E). cbn [fst snd] in *. cbn [flat_map]. unfold char_text at 1. rewrite <- !app_assoc. rewrite seq_word by (apply C). cbn [bind]. rewrite get_word by exact C. cbn [bind]. rewrite var_word by (apply T). cbn [bind]. rewrite (is_text_mapping _ _ T). cbn [bind].
    destruct (word_bound _ C) as [_ SZ]. destruct (push_ok m ps (word_code (fst x)) p R ltac:(lia) N) as (m1 & E1 & _ & R1). rewrite E1. cbn [bind].
    destruct (IH f m1 _ (note l (word_code (fst x))) b k R1 B ST ltac:(cbn [length] in L; lia)) as (m' & E2 & R'). exists m'. split; [exact E2|]. rewrite <- app_assoc in R'. rewrite E. exact R'.
Qed.

(** ** The head and the foot *)
Lemma cmap_loop_S f tokens c : cmap_loop (S f) tokens c =
  do r <- ps_next (cs_tok c);
  match r with
  | None => Ok (cs_map c, cs_lim c)
  | Some (PKey t, s) => do c <- section f t tokens (mk_cs (cs_map c) (cs_lim c) s); cmap_loop f [] c
  | Some (PVal o, s) => cmap_loop f (o :: tokens) (mk_cs (cs_map c) (cs_lim c) s)
  | Some (PProc, _) => Err EInternalLogic
  end.
Proof. reflexivity. Qed.
Definition plain (t : list Z) : bool := negb (beq t (bs "begincodespacerange") || beq t (bs "beginbfrange") || beq t (bs "beginbfchar") || beq t (bs "begincidrange") || beq t (bs "begincidchar")).
Lemma section_plain f t tokens c : plain t = true -> section f t tokens c = Ok c.
Proof.
  unfold plain, section. destruct (beq t _); [discriminate|]. destruct (beq t _); [discriminate|]. destruct (beq t _); [discriminate|]. destruct (beq t _); [discriminate|]. destruct (beq t _); [discriminate|]. reflexivity.
Qed.
Ltac step := rewrite cmap_loop_S; cbn [cs_tok cs_map cs_lim];
  match goal with |- context [ps_next ?x] => let e := eval vm_compute in (ps_next x) in let H := fresh in assert (H : ps_next x = e) by (vm_compute; reflexivity); rewrite H; clear H end; cbn [bind];
  try (rewrite section_plain by (vm_compute; reflexivity); cbn [bind]).
Lemma head_reads f m l k : cmap_loop (19 + f) [] (mk_cs m l (mk_tst [] (unicode_head ++ k))) = do c <- codespace f (mk_cs m l (mk_tst [] (10 :: k))); cmap_loop f [] c.
Proof.
  assert (E : exists h, h = unicode_head) by (eexists; reflexivity). destruct E as (h & E). rewrite <- E. vm_compute in E. rewrite E. clear E h. cbn [Nat.add app].
  step. do 17 step. rewrite cmap_loop_S. cbn [cs_tok cs_map cs_lim].
  match goal with |- context [ps_next ?x] => let e := eval vm_compute in (ps_next x) in let H := fresh in assert (H : ps_next x = e) by (vm_compute; reflexivity); rewrite H; clear H end. cbn [bind].
  reflexivity.
Qed.
Lemma foot_reads f m l : cmap_loop (12 + f) [] (mk_cs m l (mk_tst [] cmap_foot)) = Ok (m, l).
Proof.
  assert (E : exists h, h = cmap_foot) by (eexists; reflexivity). destruct E as (h & E). rewrite <- E. vm_compute in E. rewrite E. clear E h. cbn [Nat.add app].
  do 10 step. reflexivity.
Qed.

(** ** The whole *)
Lemma codespace_blank f m l b k : blank b -> codespace f (mk_cs m l (mk_tst [] (b ++ k))) = codespace f (mk_cs m l (mk_tst [] k)).
Proof. intros B. destruct f; [reflexivity|]. cbn [codespace cs_tok cs_map cs_lim]. unfold read_sequence. rewrite ps_blank by exact B. reflexivity. Qed.
Lemma stops_white b k : white b -> stops (b ++ k).
Proof. intros [B N]. destruct b as [|c b]; [contradiction|]. assert (W : is_ws c = true) by (inversion B; assumption). cbn [app stops]. left. exact W. Qed.
Lemma stops_word x k : spaced_ok x -> stops (spaced_text x ++ k).
Proof. intros [B _]. unfold spaced_text. rewrite <- app_assoc. destruct (fst x) as [|c w].
  - cbn [app stops]. right. split; [reflexivity|]. split; [discriminate|]. intros E. apply (f_equal (@length Z)) in E. rewrite !app_length in E. cbn [length] in E. lia.
  - assert (W : is_ws c = true) by (inversion B; assumption). cbn [app stops]. left. exact W.
Qed.
Lemma key_begin_chars : keyword (bs "beginbfchar"). Proof. keyword_tac. Qed.
Lemma key_begin_ranges : keyword (bs "beginbfrange"). Proof. keyword_tac. Qed.
Lemma chars_len xs : (length xs <= length (flat_map char_text xs))%nat.
Proof. induction xs as [|x xs IH]; [cbn; lia|]. cbn [flat_map length]. unfold char_text at 1. rewrite !app_length. pose proof (spaced_len (fst x)). lia. Qed.
Lemma ranges_len rs : (length rs <= length (flat_map range_text rs))%nat.
Proof. induction rs as [|x xs IH]; [cbn; lia|]. cbn [flat_map length]. unfold range_text at 1. rewrite !app_length. pose proof (spaced_len (r_lo x)). lia. Qed.
Lemma dec_nonempty n : 0 <= n -> (1 <= length (dec n))%nat.
Proof. intros N. assert (D : dec n <> []) by (apply (dec_spec n); lia). destruct (dec n); [contradiction|cbn; lia]. Qed.
Lemma part_reads p new : part_means range_does p new -> forall f m ps l k, reach m ps -> stops k -> (length (part_text p) <= f)%nat ->
  exists m', cmap_loop (S (S f)) [] (mk_cs m l (mk_tst [] (part_text p ++ k))) = cmap_loop f [] (mk_cs m' (notes l (part_codes p)) (mk_tst [] k)) /\ reach m' (ps ++ new).
Proof.
  intros ([B1 N1] & W2 & [B3 N3] & N & D) f m ps l k R ST L. unfold part_text in *. rewrite <- !app_assoc.
  rewrite cmap_loop_S. cbn [cs_tok cs_map cs_lim]. rewrite ps_num by (try assumption; apply stops_white; exact W2). cbn [bind]. rewrite cmap_loop_S. cbn [cs_tok cs_map cs_lim]. rewrite !app_length in L. pose proof (dec_nonempty (p_n p) (proj1 N)) as DL. unfold part_codes.
  destruct (p_body p) as [xs|rs].
  - rewrite <- !app_assoc. assert (ST2 : stops (flat_map char_text xs ++ p_b3 p ++ bs "endbfchar" ++ k)).
    { inversion D as [|x q xs' qs X F]; subst; cbn [flat_map app].
      - apply stops_white. split; assumption.
      - unfold char_text. rewrite <- !app_assoc. apply stops_word. apply X. }
    rewrite ps_key by (try assumption; try apply W2; exact key_begin_chars). cbn [bind]. unfold section. rewrite (beq_refl (bs "beginbfchar")). change (beq (bs "beginbfchar") (bs "begincodespacerange")) with false. change (beq (bs "beginbfchar") (bs "beginbfrange")) with false. cbn iota.
    rewrite !app_length in L. pose proof (chars_len xs). destruct (bfchar_reads xs new D f m ps l (p_b3 p) k R B3 ST ltac:(lia)) as (m' & E & R'). rewrite E. cbn [bind]. exists m'. auto.
  - destruct D as (pss & D & ->). rewrite <- !app_assoc. assert (ST2 : stops (flat_map range_text rs ++ p_b3 p ++ bs "endbfrange" ++ k)).
    { inversion D as [|x q xs' qs X F]; subst; cbn [flat_map app].
      - apply stops_white. split; assumption.
      - unfold range_text. rewrite <- !app_assoc. apply stops_word. apply X. }
    rewrite ps_key by (try assumption; try apply W2; exact key_begin_ranges). cbn [bind]. unfold section. rewrite (beq_refl (bs "beginbfrange")). change (beq (bs "beginbfrange") (bs "begincodespacerange")) with false. cbn iota.
    rewrite !app_length in L. pose proof (ranges_len rs). destruct (bfrange_reads rs pss D f m ps l (p_b3 p) k R B3 ST ltac:(lia)) as (m' & E & R'). rewrite E. cbn [bind]. exists m'. auto.
Qed.
Lemma notes_app l a b : notes l (a ++ b) = notes (notes l a) b.
Proof. unfold notes. apply fold_left_app. Qed.
Lemma stops_parts parts news : Forall2 (part_means range_does) parts news -> stops (flat_map part_text parts ++ cmap_foot).
Proof. intros F. destruct F as [|p new parts news D F]; [left; reflexivity|]. cbn [flat_map]. unfold part_text at 1. rewrite <- !app_assoc. apply stops_white. apply D. Qed.
Lemma parts_read parts news : Forall2 (part_means range_does) parts news -> forall f m ps l, reach m ps -> (length (flat_map part_text parts) + 12 <= f)%nat ->
  exists m', cmap_loop f [] (mk_cs m l (mk_tst [] (flat_map part_text parts ++ cmap_foot))) = Ok (m', notes l (flat_map part_codes parts)) /\ reach m' (ps ++ concat news).
Proof.
  induction 1 as [|p new parts news D F IH]; intros f m ps l R L.
  - cbn [flat_map app concat length] in *. exists m. replace f with (12 + (f - 12))%nat by lia. rewrite foot_reads, app_nil_r. auto.
  - cbn [flat_map] in *. rewrite <- app_assoc. rewrite app_length in L. assert (L2 : (2 <= length (part_text p))%nat).
    { destruct D as ([_ N1] & [_ N2] & _). unfold part_text. rewrite !app_length. destruct (p_b1 p); [contradiction|]. destruct (p_b2 p); [contradiction|]. cbn [length]. lia. }
    assert (L3 : exists g, f = S (S g)) by (exists (f - 2)%nat; lia). destruct L3 as (g & ->).
    destruct (part_reads p new D g m ps l (flat_map part_text parts ++ cmap_foot) R (stops_parts _ _ F) ltac:(lia)) as (m1 & E & R1). rewrite E.
    destruct (IH g m1 _ (notes l (part_codes p)) R1 ltac:(lia)) as (m' & E' & R'). exists m'. rewrite E'. rewrite notes_app. cbn [concat]. rewrite app_assoc. auto.
Qed.
Lemma head_long : (33 <= length unicode_head)%nat.
Proof. apply Nat.leb_le. vm_compute. reflexivity. Qed.
Lemma cmap_reads cs b parts news : Forall both_codes cs -> blank b -> Forall2 (part_means range_does) parts news ->
  exists m, parse_cmap (cmap_text cs b parts) = Ok (m, notes new_limits (flat_map codes_of cs ++ flat_map part_codes parts)) /\ reach m (concat news).
Proof.
  intros C B F. unfold parse_cmap, cmap_text. rewrite app_length. pose proof head_long as H.
  remember (length unicode_head + length (flat_map char_text cs ++ b ++ bs "endcodespacerange" ++ flat_map part_text parts ++ cmap_foot))%nat as n eqn:E. rewrite !app_length in E. pose proof (chars_len cs).
  replace (S n) with (19 + (S n - 19))%nat by lia. rewrite head_reads. match goal with |- context [mk_tst [] (10 :: ?x)] => change (10 :: x) with ([10] ++ x) end. rewrite codespace_blank by (repeat constructor).
  rewrite codespace_reads by (try assumption; try exact (stops_parts _ _ F); lia). cbn [bind].
  destruct (parts_read parts news F (S n - 19) new_map [] (notes new_limits (flat_map codes_of cs)) R_new ltac:(lia)) as (m & -> & R). exists m. rewrite notes_app. auto.
Qed.
