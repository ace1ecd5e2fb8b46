(** Properties of outlines *)
From Verif Require Import Base ChainProofs OutlineModel OutlineSpec OutlineProofs OutlineOpProofs OutlinePropLemmas.
Local Open Scope Z_scope.

(** ** C42 *)
(** A call on an item that was not erased always means a change of the forest *)
Theorem C42_step s K c i q : matches s K -> In i (K q) -> c = CChild i \/ c = CNext i \/ c = CErase i -> exists K' n', step K (top s) c K' n'.
Proof.
  intros M I C. destruct (step_ok s K c M) as (N & s' & K' & _ & H & _); [exists q; destruct C as [-> |[-> | ->]]; exact I|]. eauto.
Qed.
Print Assumptions C42_step.
(** From a new root, any sequence of creating children and siblings and erasing items: no call fails, and at the end First
    and Next, Last and Prev and Parent give exactly the children in the order the calls mean, in memory and in the document *)
Theorem C42_history_partial l K n : steps only_root 1 l K n ->
  exists N s, (forall fuel, (N <= fuel)%nat -> run fuel start l = Ok s) /\ top s = n /\
    forall i q, In i (K q) -> linked (mems s) K i /\ linked (dics s) K i.
Proof.
  intros H. destruct (history only_root 1 l start K n start_matches eq_refl H) as (N & s & A & (F & LM & LD & LV) & B). exists N, s. split; [exact A|]. split; [congruence|].
  intros i q I. split; [exact (layer_linked (mems s) K q i LM I)|exact (layer_linked (dics s) K q i LD I)].
Qed.
Print Assumptions C42_history_partial.
(** The same from any outline whose items were all made in memory *)
Theorem C42_continued_partial s K l K' n' : matches s K -> steps K (top s) l K' n' ->
  exists N s', (forall fuel, (N <= fuel)%nat -> run fuel s l = Ok s') /\ top s' = n' /\ matches s' K' /\
    forall i q, In i (K' q) -> linked (mems s') K' i /\ linked (dics s') K' i.
Proof.
  intros M H. destruct (history K (top s) l s K' n' M eq_refl H) as (N & s' & A & M' & B). exists N, s'. split; [exact A|]. split; [congruence|]. split; [exact M'|]. destruct M' as (F & LM & LD & LV).
  intros i q I. split; [exact (layer_linked (mems s') K' q i LM I)|exact (layer_linked (dics s') K' q i LD I)].
Qed.
Print Assumptions C42_continued_partial.
(** Loaded items have no last child in memory: a new child of a loaded item becomes its last, but no sibling leads to it *)
Theorem C42_loaded_refuted : exists s0 s i s', run 0 start [CChild 0] = Ok s0 /\ load_outlines (dics s0) 0 (top s0) = Ok s /\ create_child s 0 = Ok (i, s') /\
  of (dics s') last_ 0 = Some i /\ of (mems s') last_ 0 = Some i /\ chain (of (dics s') next) (of (dics s') first 0) [1] /\ chain (of (mems s') next) (of (mems s') first 0) [1] /\ i <> 1.
Proof. repeat eexists; try reflexivity; discriminate. Qed.
Print Assumptions C42_loaded_refuted.
(** InsertChild never finds that an item is there already. Inserting a child again makes it its own sibling. *)
Theorem C42_insert_refuted : (forall fuel s this it, insert_child fuel s this it <> Err EOutlineItemAlreadyPresent) /\
  exists s s', run 0 start [CChild 0] = Ok s /\ insert_child 4 s 0 1 = Ok s' /\ of (mems s') next 1 = Some 1 /\ of (mems s') prev 1 = Some 1.
Proof. split; [exact insert_unchecked|]. repeat eexists. Qed.
Print Assumptions C42_insert_refuted.
(** An inserted item does not get a parent: after it is erased the parent still points to it, and the next use of that is undefined *)
Theorem C42_inserted_erase_refuted : exists s1 s2, insert_child 4 (snd (new_item start None)) 0 1 = Ok s1 /\ erase 1 s1 1 = Ok s2 /\
  of (mems s2) first 0 = Some 1 /\ mems s2 1 = None /\ create_child s2 0 = UB.
Proof. repeat eexists. Qed.
Print Assumptions C42_inserted_erase_refuted.

(** Two chapters, a section in the first, one chapter between them, then the first chapter is erased *)
Definition calls1 : list call := [CChild 0; CChild 0; CChild 1; CNext 1; CChild 4; CErase 1].
Example C42_case : match run 9 start calls1 with Ok s => top s = 6 /\ of (dics s) first 0 = Some 4 /\ of (dics s) next 4 = Some 2 /\ of (dics s) next 2 = None /\
  of (dics s) last_ 0 = Some 2 /\ of (dics s) prev 2 = Some 4 /\ of (dics s) prev 4 = None /\ of (mems s) first 4 = Some 5 /\ mems s 1 = None /\ mems s 3 = None | _ => False end.
Proof. vm_compute. repeat split. Qed.
Example C42_steps_case : exists K, steps only_root 1 calls1 K 6 /\ K (Some 0) = [4; 2] /\ K (Some 4) = [5] /\ K (Some 1) = [].
Proof.
  pose (set := fun (K : family) p l => (fun q : option Z => if match p, q with Some a, Some b => a =? b | None, None => true | _, _ => false end then l else K q) : family).
  assert (SO : forall K p l q, q <> p -> set K p l q = K q). { intros K [p|] l [q|] H; unfold set; try reflexivity; [destruct (Z.eqb_spec p q); congruence|congruence]. }
  pose (K1 := set only_root (Some 0) [1]). pose (K2 := set K1 (Some 0) [1; 2]). pose (K3 := set K2 (Some 1) [3]). pose (K4 := set K3 (Some 0) [1; 4; 2]). pose (K5 := set K4 (Some 4) [5]). pose (K6 := set (set K5 (Some 0) [4; 2]) (Some 1) []).
  assert (G : forall j, under K5 1 j -> j = 1 \/ j = 3).
  { intros j U. induction U as [|p j U IH J]; [auto|]. destruct IH as [-> | ->]; cbn in J; intuition. }
  exists K6. split; [|repeat split].
  eapply (ss_cons _ _ _ _ K1 2); [apply (s_child _ 1 0 None); [left; reflexivity|reflexivity|intros; apply SO; assumption]|].
  eapply (ss_cons _ _ _ _ K2 3); [apply (s_child _ 2 0 None); [left; reflexivity|reflexivity|intros; apply SO; assumption]|].
  eapply (ss_cons _ _ _ _ K3 4); [apply (s_child _ 3 1 (Some 0)); [left; reflexivity|reflexivity|intros; apply SO; assumption]|].
  eapply (ss_cons _ _ _ _ K4 5); [apply (s_next _ 4 1 (Some 0) [] [2]); [reflexivity|reflexivity|intros; apply SO; assumption]|].
  eapply (ss_cons _ _ _ _ K5 6); [apply (s_child _ 5 4 (Some 0)); [right; left; reflexivity|reflexivity|intros; apply SO; assumption]|].
  eapply (ss_cons _ _ _ _ K6 6); [|constructor]. apply (s_erase _ 6 1 (Some 0)); [left; reflexivity| |].
  - intros p (j & -> & U). destruct (G j U) as [-> | ->]; reflexivity.
  - intros p N. unfold K6. destruct p as [p|]; [|reflexivity]. destruct (Z.eq_dec p 1) as [->|N1]; [exfalso; apply N; exists 1; split; [reflexivity|constructor]|]. rewrite SO by congruence.
    destruct (Z.eq_dec p 0) as [->|N0]; [reflexivity|]. rewrite SO by congruence. destruct (Z.eq_dec p 4) as [->|N4]; [reflexivity|]. unfold K5, K4, K3, K2, K1. rewrite !SO by congruence. reflexivity.
Qed.

(** ** C86 *)
(** Loading ends for any table of dictionaries, also with cycles, with a result or an error *)
Theorem C86_total d root n : (exists s, load_outlines d root n = Ok s) \/ exists e, load_outlines d root n = Err e.
Proof. exact (load_outlines_total d root n). Qed.
Print Assumptions C86_total.
(** An outline whose First and Next entries do not nest deeper than the guard allows is loaded: all items are there with the
    links of the document, apart from the last child *)
Theorem C86_load_partial s K root : matches s K -> K None = [root] -> fits K 256 [root] -> exists s', load_outlines (dics s) root (top s) = Ok s' /\ dics s' = dics s /\
  forall i, under K root i -> exists l, dics s i = Some l /\ mems s' i = Some (mk_links (up l) (prev l) (next l) (first l) None).
Proof. exact (load_outlines_ok s K root). Qed.
Print Assumptions C86_load_partial.
(** Each sibling is a nested constructor: with 256 or more children of the root the outline that the library made itself
    cannot be loaded *)
Theorem C86_long_refuted n : (256 <= n)%nat -> exists s, run 0 start (repeat (CChild 0) n) = Ok s /\ load_outlines (dics s) 0 (top s) = Err EInvalidXRef.
Proof. exact (long_refuted n). Qed.
Print Assumptions C86_long_refuted.
(** The guard bounds the depth, not the work: k + 1 objects, each the First and the Next of the one before, make
    2^(k+1) - 1 items *)
Theorem C86_work_refuted k : (k <= 255)%nat -> exists d m, (forall i, d i <> None <-> 0 <= i <= Z.of_nat k) /\ load 256 d 0 None None (fun _ => None, 0) = Ok (m, 2 ^ (Z.of_nat k + 1) - 1).
Proof. exact (work_refuted k). Qed.
Print Assumptions C86_work_refuted.

Example C86_case : match (do s <- run 9 start [CChild 0; CChild 0; CChild 1]; load_outlines (dics s) 0 (top s)) with Ok s' =>
  mems s' 1 = Some (mk_links (Some 0) None (Some 2) (Some 3) None) /\ mems s' 2 = Some (mk_links (Some 0) (Some 1) None None None) /\ mems s' 3 = Some (mk_links (Some 1) None None None None) /\ mems s' 4 = None | _ => False end.
Proof. vm_compute. repeat split. Qed.
Definition abc : family := fun p => match p with None => [0] | Some 0 => [1; 2] | Some 1 => [3] | _ => [] end.
Example C86_fits_case : fits abc 256 [0] /\ ~ fits abc 2 [0].
Proof.
  split; [repeat constructor|]. intros H. inversion H as [|g i l A _]; subst. inversion A as [|g i l B _]; subst. inversion B.
Qed.
