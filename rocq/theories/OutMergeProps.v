(** C169: the outlines of a document that is appended to another *)
From Coq Require Import Lia.
From Verif Require Import Base OutlineModel OutlineSpec OutMergeModel OutMergeProofs.
Local Open Scope Z_scope.

(** Two outlines that were made in memory: when appending succeeds, following First and Next from the root of the first gives its items and then those of the other *)
Theorem C169_items_partial : forall fuel s K r o K' ro diff s',
  matches s K -> K None = [r] -> matches o K' -> K' None = [ro] ->
  (forall j, dics s j <> None -> j < diff) -> (forall j l x, dics o j = Some l -> first l = Some x \/ next l = Some x -> 0 <= x) ->
  append_outlines fuel s (Some r) (Some (ro, o)) diff = Ok s' ->
  chain (of (dics s') next) (of (dics s') first r) (K (Some r) ++ map (fun i => i + diff) (K' (Some ro))).
Proof. intros. eapply append_chain; eassumption. Qed.
(** Last is then the first of the items of the other: it is right exactly when there is just one *)
Theorem C169_last : forall fuel s K r o K' ro diff s',
  matches s K -> K None = [r] -> matches o K' -> K' None = [ro] ->
  (forall j, dics s j <> None -> j < diff) -> (forall j l x, dics o j = Some l -> first l = Some x \/ next l = Some x -> 0 <= x) ->
  append_outlines fuel s (Some r) (Some (ro, o)) diff = Ok s' ->
  K' (Some ro) <> [] -> (of (dics s') last_ r = last_opt (map (fun i => i + diff) (K' (Some ro))) <-> exists i, K' (Some ro) = [i]).
Proof.
  intros fuel s K r o K' ro diff s' M R M' R' T N A NE. destruct (append_chain _ _ _ _ _ _ _ _ _ M R M' R' T N A) as [_ L]. rewrite (L NE).
  destruct M' as ((ND & _) & _). specialize (ND (Some ro)). destruct (K' (Some ro)) as [|i l]; [contradiction|]. cbn [hd_error shift_ref option_map]. split.
  - intro H. exists i. destruct l as [|k l]; [reflexivity|]. exfalso. apply NoDup_cons_iff in ND. destruct ND as [ND _]. apply ND.
    unfold last_opt in H. rewrite <- map_rev in H. cbn [rev] in H. destruct (rev l) as [|z w] eqn:E.
    + cbn in H. injection H as H. left. lia.
    + cbn in H. injection H as H. right. apply in_rev. rewrite E. left. lia.
  - intros (j & E). injection E as -> ->. reflexivity.
Qed.
Lemma none_never fuel s ro o diff m f : mems o ro = Some m -> first m = Some f -> forall s', append_outlines fuel s None (Some (ro, o)) diff <> Ok s'.
Proof.
  intros M F s'. unfold append_outlines, item. rewrite M. cbn [bind]. rewrite F. cbn [bind].
  generalize (load 256 (merged (dics s) (dics o) diff) (f + diff) None None (mems s, 0)). intros [a|e| |]; discriminate.
Qed.
Lemma none_ub o : run 0 start [CChild 0] = Ok o -> append_outlines 9 (mk_ost (fun _ => None) (fun _ => None) 5) None (Some (0, o)) 5 = UB.
Proof.
  intro E. assert (H : (do o <- run 0 start [CChild 0]; append_outlines 9 (mk_ost (fun _ => None) (fun _ => None) 5) None (Some (0, o)) 5) = UB) by (vm_compute; reflexivity).
  rewrite E in H. exact H.
Qed.
(** Without outlines of its own a document cannot get those of another *)
Theorem C169_none_refuted : (forall fuel s ro o diff m f, mems o ro = Some m -> first m = Some f -> forall s', append_outlines fuel s None (Some (ro, o)) diff <> Ok s') /\
  exists o, run 0 start [CChild 0] = Ok o /\ append_outlines 9 (mk_ost (fun _ => None) (fun _ => None) 5) None (Some (0, o)) 5 = UB.
Proof.
  split; [exact none_never|]. destruct (run 0 start [CChild 0]) as [o| | |] eqn:E; try discriminate. exists o. split; [reflexivity|].
  apply (none_ub o E).
Qed.
(** Without outlines in the other document nothing changes in memory *)
Theorem C169_nothing : forall fuel s own ro o diff m, mems o ro = Some m -> first m = None ->
  exists s', append_outlines fuel s own (Some (ro, o)) diff = Ok s' /\ (forall i, mems s' i = mems s i) /\ forall i l, dics s i = Some l -> dics s' i = Some l.
Proof.
  intros fuel s own ro o diff m M F. unfold append_outlines, item. rewrite M. cbn [bind]. rewrite F. eexists. split; [reflexivity|]. split; [reflexivity|].
  intros i l D. cbn [dics]. unfold merged. rewrite D. reflexivity.
Qed.
Lemma do_ok {A B} (r : res A) (k : A -> res B) (P : B -> Prop) : match (do x <- r; k x) with Ok y => P y | _ => False end -> exists x y, r = Ok x /\ k x = Ok y /\ P y.
Proof. destruct r as [x| | |]; try contradiction. cbn [bind]. destruct (k x) as [y| | |] eqn:E; try contradiction. intro H. exists x, y. repeat split; assumption. Qed.
(** The items still name the root of the other outline, a copy that nothing leads to, as their parent *)
Theorem C169_parent_refuted : exists s s', run 0 start [CChild 0] = Ok s /\ append_outlines 9 s (Some 0) (Some (0, s)) 5 = Ok s' /\
  chain (of (dics s') next) (of (dics s') first 0) [1; 6] /\ of (dics s') up 6 = Some 5 /\ of (mems s') up 6 = None.
Proof. apply (do_ok (run 0 start [CChild 0]) (fun s => append_outlines 9 s (Some 0) (Some (0, s)) 5)). vm_compute. repeat split. Qed.
(** Outlines that were loaded have no last item in memory: Last is the new item and no other item leads to it *)
Theorem C169_loaded_refuted : exists o s', run 0 start [CChild 0] = Ok o /\ (do s <- load_outlines (dics o) 0 (top o); append_outlines 9 s (Some 0) (Some (0, o)) 5) = Ok s' /\
  chain (of (dics s') next) (of (dics s') first 0) [1] /\ of (dics s') last_ 0 = Some 6.
Proof. apply (do_ok (run 0 start [CChild 0]) (fun o => do s <- load_outlines (dics o) 0 (top o); append_outlines 9 s (Some 0) (Some (0, o)) 5)). vm_compute. repeat split. Qed.

(** Two chapters, and a document with two chapters of which the first has a section *)
Example C169_case :
  match (do s <- run 0 start [CChild 0; CChild 0]; do o <- run 0 start [CChild 0; CChild 1; CNext 1]; append_outlines 9 s (Some 0) (Some (0, o)) 10) with
  | Ok s' => chain (of (dics s') next) (of (dics s') first 0) [1; 2; 11; 13] /\ of (dics s') prev 11 = Some 2 /\ of (dics s') first 11 = Some 12 /\
             of (dics s') last_ 0 = Some 11 /\ of (mems s') next 11 = Some 13
  | _ => False end.
Proof. vm_compute. repeat split. Qed.

Print Assumptions C169_items_partial.
Print Assumptions C169_last.
Print Assumptions C169_none_refuted.
Print Assumptions C169_nothing.
Print Assumptions C169_parent_refuted.
Print Assumptions C169_loaded_refuted.
