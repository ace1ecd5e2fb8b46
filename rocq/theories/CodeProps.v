(** Theorems on the maps between character codes and texts. *)
From Coq Require Import Lia Permutation.
From Verif Require Import Base CodeModel CodeSpec CodeProofs CodePropLemmas.
Local Open Scope Z_scope.

(** ** C43 *)
(** Whatever was pushed and looked up before and whatever the shuffle, the next code found is the one of the longest text with a code *)
Theorem C43_longest_partial s ps sh text : reach s ps -> consistent ps -> is_shuffle sh -> longest ps text (snd (next_code sh s text)).
Proof. exact (next_longest s ps sh text). Qed.
Print Assumptions C43_longest_partial.
(** A whole text has the code which was given to it *)
Theorem C43_exact_partial s ps sh text : reach s ps -> consistent ps -> is_shuffle sh ->
  match snd (code_of_text sh s text) with Some c => stands_for ps c text | None => forall c, ~ stands_for ps c text end.
Proof. exact (text_exact s ps sh text). Qed.
Print Assumptions C43_exact_partial.
(** If no text has two codes the results of two runs are the same *)
Theorem C43_runs_partial s s' ps sh sh' text : reach s ps -> reach s' ps -> consistent ps -> unique_texts ps -> is_shuffle sh -> is_shuffle sh' ->
  snd (next_code sh s text) = snd (next_code sh' s' text).
Proof. intros R R' C U H H'. exact (longest_unique ps text _ _ U (next_longest s ps sh text R C H) (next_longest s' ps sh' text R' C H')). Qed.
Print Assumptions C43_runs_partial.
(** A code is decoded to what was pushed last with its number *)
Theorem C43_decode s ps c p : reach s ps -> (code_points s c = Some p <-> exists k, c_num k = c_num c /\ stands_for ps k p).
Proof. intros R. exact (look_iff s ps c p (reach_inv s ps R)). Qed.
Print Assumptions C43_decode.
(** The sizes of the limits are the smallest and the largest one pushed *)
Theorem C43_limits s ps : reach s ps -> Forall (fun q => 1 <= c_size (fst q) <= 255) ps -> ps <> [] ->
  (forall q, In q ps -> l_min (m_limits s) <= c_size (fst q) <= l_max (m_limits s)) /\
  (exists q, In q ps /\ c_size (fst q) = l_min (m_limits s)) /\ (exists q, In q ps /\ c_size (fst q) = l_max (m_limits s)).
Proof. intros R B N. destruct (reach_limits s ps R B) as (L1 & L2 & _). destruct (L2 N) as [(qa & Ia & Ea) (qb & Ib & Eb)]. split; [exact L1|]. split; eauto. Qed.
Print Assumptions C43_limits.

Definition rev_shuffle (m : unit_map) : unit_map := rev m.
Lemma rev_shuffle_ok : is_shuffle rev_shuffle.
Proof. intros m. apply Permutation_rev. Qed.
Lemma id_shuffle_ok : is_shuffle (fun m => m).
Proof. intros m. apply Permutation_refl. Qed.
Definition pushes (ps : unit_map) : res char_map := fold_left (fun r p => do s <- r; push s (fst p) (snd p)) ps (Ok new_map).
Lemma pushes_reach ps : forall s, pushes ps = Ok s -> reach s ps.
Proof.
  induction ps as [|[c p] ps IH] using rev_ind; unfold pushes in *; intros s E; [injection E as <-; constructor|].
  rewrite fold_left_app in E. cbn [fold_left fst snd] in E. destruct (fold_left _ ps (Ok new_map)) as [s1| | |]; cbn [bind] in E; try discriminate. exact (R_push s1 ps c p s (IH s1 eq_refl) E).
Qed.
(** Two codes for one text: which one is found depends on the shuffle (code 1 and code 2 both stand for "A") *)
Theorem C43_order_refuted : exists ps s text sh sh', reach s ps /\ consistent ps /\ is_shuffle sh /\ is_shuffle sh' /\ snd (next_code sh s text) <> snd (next_code sh' s text).
Proof.
  exists [(mk_code 1 1, [65]); (mk_code 2 1, [65])]. eexists. exists [65], (fun m => m), rev_shuffle. split; [apply pushes_reach; reflexivity|].
  split; [intros p q [<-|[<-|[]]] [<-|[<-|[]]] E; reflexivity|]. split; [exact id_shuffle_ok|]. split; [exact rev_shuffle_ok|]. cbn. discriminate.
Qed.
(** A code point that only begins a longer text is said to have a code, the empty one *)
Theorem C43_point_refuted : exists ps s cp, reach s ps /\ consistent ps /\ (forall c, ~ stands_for ps c [cp]) /\ snd (code_of_point (fun m => m) s cp) = Some no_code.
Proof.
  exists [(mk_code 1 1, [102; 105])]. eexists. exists 102. split; [apply pushes_reach; reflexivity|]. split; [intros p q [<-|[]] [<-|[]] E; reflexivity|].
  split; [|reflexivity]. intros c ST. pose proof (stands_in _ _ _ ST) as [E|[]]. discriminate.
Qed.
(** Codes of the same number and other sizes are one: <41> is decoded as <0041>, and of two pushes the first size stays with the second text *)
Theorem C43_size_refuted : exists ps s, reach s ps /\ (forall p, ~ stands_for ps (mk_code 65 1) p) /\ code_points s (mk_code 65 1) = Some [66].
Proof.
  exists [(mk_code 65 2, [66])]. eexists. split; [apply pushes_reach; reflexivity|]. split; [|reflexivity]. intros p ST. pose proof (stands_in _ _ _ ST) as [E|[]]. discriminate.
Qed.
Theorem C43_overwrite_refuted : exists ps s, reach s ps /\ stands_for ps (mk_code 65 1) [67] /\ snd (code_of_text (fun m => m) s [67]) = Some (mk_code 65 2) /\ snd (code_of_text (fun m => m) s [66]) = None.
Proof.
  exists [(mk_code 65 2, [66]); (mk_code 65 1, [67])]. eexists. split; [apply pushes_reach; reflexivity|]. split; [|split; reflexivity]. exists [(mk_code 65 2, [66])], []. split; [reflexivity|intros q []].
Qed.
Print Assumptions C43_order_refuted.
Print Assumptions C43_point_refuted.
Print Assumptions C43_size_refuted.
Print Assumptions C43_overwrite_refuted.

(** ** C91 *)
(** Encoding and decoding end for all texts and all bytes *)
Theorem C91_encode_ends s ps sh text : reach s ps -> consistent ps -> (forall k, is_shuffle (sh k)) -> Forall (fun q => c_size (fst q) <= 4) ps -> exists r, encode (length text) sh s text [] = Ok r.
Proof. intros R C SH B. exact (encode_total sh ps SH C B (length text) s text [] R (le_n _)). Qed.
Theorem C91_decode_ends look l bytes : exists r, decode (length bytes) look l bytes = Ok r.
Proof. exact (decode_total look l (length bytes) bytes (le_n _)). Qed.
(** With codes of one size, a text that is encoded is decoded again, whatever the shuffles.
    Partial: it is false for codes of several sizes (below), and texts with code points that [decode] drops are excluded. *)
Theorem C91_round_trip_partial s ps n sh text s' out :
  reach s ps -> consistent ps -> 1 <= n <= 4 -> Forall (fun q => c_size (fst q) = n /\ 0 <= c_num (fst q) < 256 ^ n) ps -> (forall k, is_shuffle (sh k)) ->
  Forall (fun cp => kept cp = true) text -> encode (length text) sh s text [] = Ok (s', Some out) -> decode (length out) (code_points s') (m_limits s') out = Ok (text, true).
Proof. exact (round_trip s ps n sh text s' out). Qed.
(** A text is refused only at a place where no text with a code begins *)
Theorem C91_refusal s ps sh text s' : reach s ps -> consistent ps -> (forall k, is_shuffle (sh k)) -> encode (length text) sh s text [] = Ok (s', None) ->
  exists cs rest, text = concat (map snd cs) ++ rest /\ rest <> [] /\ Forall (fun x => stands_for ps (fst x) (snd x)) cs /\ forall c p r, rest = p ++ r -> ~ stands_for ps c p.
Proof. intros R C SH E. exact (encode_none (length text) sh s ps text [] s' SH R C E). Qed.
Print Assumptions C91_encode_ends.
Print Assumptions C91_decode_ends.
Print Assumptions C91_round_trip_partial.
Print Assumptions C91_refusal.
(** Codes <0041> for "A", <4142> for "B" and <20> for a space, a map without a code that begins another one: "B" becomes <4142> and is
    decoded as "AB" *)
Theorem C91_sizes_refuted : exists ps s s' out text, reach s ps /\ consistent ps /\ (forall q, In q ps -> 0 <= c_num (fst q) < 256 ^ c_size (fst q)) /\
  encode (length text) (fun _ m => m) s text [] = Ok (s', Some out) /\ text = [66] /\ decode (length out) (code_points s') (m_limits s') out = Ok ([65; 66], false).
Proof.
  exists [(mk_code 65 2, [65]); (mk_code 16706 2, [66]); (mk_code 32 1, [32])]. eexists. eexists. exists [65; 66], [66]. split; [apply pushes_reach; reflexivity|].
  split; [intros p q [<-|[<-|[<-|[]]]] [<-|[<-|[<-|[]]]] E; cbn in *; congruence|]. split; [intros q [<-|[<-|[<-|[]]]]; cbn; lia|]. split; [reflexivity|]. split; [reflexivity|]. vm_compute. reflexivity.
Qed.
Print Assumptions C91_sizes_refuted.
(** An encoding made from a map has the limits of an empty map: no byte is decoded with the map *)
Theorem C91_moved_refuted s b bytes : exists text, decode (S (length bytes)) (code_points (fst (cmap_encoding s))) (snd (cmap_encoding s)) (b :: bytes) = Ok (text, false).
Proof.
  cbn [cmap_encoding fst snd decode next_points default_limits l_max]. change (0 <? 1) with true. cbn iota. pose proof (fallback_shorter default_limits bytes b 1) as F.
  destruct (fallback default_limits bytes b 1) as [c rest]. cbn in F. destruct (decode_total (code_points s) default_limits (length bytes) rest F) as (r & ->). cbn. eauto.
Qed.
Print Assumptions C91_moved_refuted.

(** ** Examples *)
(** f, i and the ligature fi have codes; "fif" is <03><01>, whatever the order *)
Definition fi_map : unit_map := [(mk_code 1 1, [102]); (mk_code 2 1, [105]); (mk_code 3 1, [102; 105])].
Example C43_case : match pushes fi_map with Ok s => map (fun sh => snd (next_code sh s [102; 105; 102])) [(fun m => m); rev_shuffle] | _ => [] end = [Some (mk_code 3 1, [102]); Some (mk_code 3 1, [102])].
Proof. reflexivity. Qed.
Example C43_hyp : consistent fi_map /\ unique_texts fi_map.
Proof.
  split; [intros p q [<-|[<-|[<-|[]]]] [<-|[<-|[<-|[]]]] E; cbn in *; congruence|]. intros c c' p A B. apply stands_in in A, B. destruct A as [A|[A|[A|[]]]], B as [B|[B|[B|[]]]]; congruence.
Qed.
Example C91_case : match pushes fi_map with
  | Ok s => do x <- encode 4 (fun k => if Nat.even k then rev_shuffle else fun m => m) s [102; 105; 105; 102] [];
            match snd x with Some out => do t <- decode (length out) (code_points (fst x)) (m_limits (fst x)) out; Ok (out, t) | None => Fuel end
  | _ => Fuel end = Ok ([3; 2; 1], ([102; 105; 105; 102], true)).
Proof. vm_compute. reflexivity. Qed.
