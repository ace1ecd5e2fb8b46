(** Name trees: insertion into leaves, limits, splitting of nodes *)
From Coq Require Import String Sorting.Sorted.
From Verif Require Import Base ChainProofs TokModel DictProofs OwnModel ListModel PageModel PageSpec PageProofs NameModel NameSpec.
Local Open Scope Z_scope.
Local Notation dict := (list (list Z * obj)) (only parsing).

(** ** Trees *)
Lemma ntree_ind2 (P : ntree -> Prop) : (forall r l, P (NLeaf r l)) -> (forall r ks, Forall P ks -> P (NNode r ks)) -> forall t, P t.
Proof.
  intros HL HN. fix F 1. intros [r l|r ks]; [apply HL|]. apply HN. induction ks as [|k ks IH]; constructor; [apply F|exact IH].
Qed.
Definition kids_of (t : ntree) : list ntree := match t with NLeaf _ _ => [] | NNode _ ks => ks end.
Definition is_node (t : ntree) : bool := match t with NLeaf _ _ => false | NNode _ _ => true end.
Definition own (h : heap) (top : bool) (t : ntree) (d : dict) : Prop :=
  h (nref t) = Some (ODict d) /\ sorted d /\ shape t d /\ limits top (entries t) d.
Lemma stored_iff h top t : stored h top t <-> (exists d, own h top t d) /\ Forall (stored h false) (kids_of t).
Proof.
  destruct t as [r l|r ks]; cbn [stored kids_of].
  - split; intros [A _]; split; auto.
  - split; intros [A B]; split; auto; clear A; induction ks as [|k ks IH]; cbn in *; auto.
    + constructor; [apply B|apply IH, B].
    + apply Forall_cons_iff in B as [B C]. split; [exact B|apply IH, C].
Qed.
Lemma nref_in t : In (nref t) (nrefs t).
Proof. destruct t; left; reflexivity. Qed.
Lemma nrefs_eq t : nrefs t = nref t :: flat_map nrefs (kids_of t).
Proof. destruct t; reflexivity. Qed.
Lemma entries_node r ks : entries (NNode r ks) = flat_map entries ks.
Proof. reflexivity. Qed.
Lemma stored_ext t : forall h h' top, (forall q, In q (nrefs t) -> h' q = h q) -> stored h top t -> stored h' top t.
Proof.
  induction t as [r l|r ks IH] using ntree_ind2; intros h h' top E; rewrite !stored_iff; intros [(d & E1 & O) K].
  - split; [|constructor]. exists d. split; [rewrite E by (apply nref_in); exact E1|exact O].
  - split; [exists d; split; [rewrite E by (apply nref_in); exact E1|exact O]|]. cbn [kids_of] in *. rewrite Forall_forall in *. intros k I.
    apply (IH k I h); [|apply K, I]. intros q Q. apply E. rewrite nrefs_eq. right. apply in_flat_map. eauto.
Qed.
Lemma stored_some t : forall h top, stored h top t -> forall q, In q (nrefs t) -> exists d, h q = Some (ODict d).
Proof.
  induction t as [r l|r ks IH] using ntree_ind2; intros h top; rewrite stored_iff; intros [(d & E & _) K] q; rewrite nrefs_eq; intros [<-|I]; eauto; cbn [kids_of] in *.
  - destruct I.
  - apply in_flat_map in I as (k & I & Q). rewrite Forall_forall in *. eapply IH; eauto.
Qed.
Lemma stored_entries h t : stored h false t -> entries t <> [].
Proof. rewrite stored_iff. intros [(d & _ & _ & _ & x & y & b & c & X & _) _] E. rewrite E in X. discriminate. Qed.
Lemma has_kids_shape t d : shape t d -> has_key (bs "Kids") d = is_node t.
Proof. destruct t; cbn [shape is_node]; unfold has_key; intros [A B]; [rewrite B|rewrite B]; reflexivity. Qed.

(** ** Dictionaries *)
Lemma direct_find h k d v : dict_get k d = Some v -> match v with ORef _ _ => False | _ => True end -> dict_find h k d = Some v.
Proof. unfold dict_find, get_key. intros ->. destruct v; auto. intros []. Qed.
Lemma direct_array h k d l : dict_get k d = Some (OArr l) -> must_array h k d = Ok l.
Proof. intros E. unfold must_array. rewrite (direct_find h k d _ E I). reflexivity. Qed.
Lemma dict_at_val h r d : h r = Some (ODict d) -> dict_at h r = Ok d.
Proof. unfold dict_at. intros ->. reflexivity. Qed.
Lemma set_key_val h r k v d : h r = Some (ODict d) -> set_key h r k v = Ok (set r (Some (ODict (dict_add k v d))) h).
Proof. intros E. unfold set_key. rewrite (dict_at_val h r d E). reflexivity. Qed.
Ltac keyneq := match goal with |- context [beq (bs ?a) (bs ?b)] => let x := eval vm_compute in (beq (bs a) (bs b)) in change (beq (bs a) (bs b)) with x; cbn match end.
Ltac dg := repeat (rewrite dict_get_add by (repeat apply dict_add_sorted; first [assumption|apply sorted_nil]); keyneq).

(** ** Lists *)
Lemma last_default {A} (l : list A) x y : l <> [] -> last l x = last l y.
Proof. induction l as [|a [|b l] IH]; intros H; [congruence|reflexivity|]. change (last (b :: l) x = last (b :: l) y). apply IH. discriminate. Qed.
Lemma last_app_ne {A} (l k : list A) x : k <> [] -> last (l ++ k) x = last k x.
Proof.
  intros H. induction l as [|a l IH]; [reflexivity|]. cbn [app]. destruct (l ++ k) eqn:E; [destruct l; [cbn in E; congruence|discriminate]|]. exact IH.
Qed.
Lemma hd_app_ne {A} (l k : list A) : l <> [] -> hd_error (l ++ k) = hd_error l.
Proof. destruct l; [congruence|reflexivity]. Qed.
Lemma pairs_app l k : pairs (l ++ k) = pairs l ++ pairs k.
Proof. apply flat_map_app. Qed.
Lemma pairs_length l : length (pairs l) = (2 * length l)%nat.
Proof. induction l as [|e l IH]; [reflexivity|]. change (pairs (e :: l)) with (sobj (fst e) :: snd e :: pairs l). cbn [length]. lia. Qed.
Lemma pairs_last l x : l <> [] -> nth (length (pairs l) - 2) (pairs l) ONull = sobj (fst (last l x)).
Proof.
  intros H. destruct (exists_last H) as (i & z & ->). rewrite last_last, pairs_app, app_length. change (pairs [z]) with [sobj (fst z); snd z]. cbn [length].
  rewrite app_nth2 by lia. replace (length (pairs i) + 2 - 2 - length (pairs i))%nat with 0%nat by lia. reflexivity.
Qed.
Lemma pairs_firstn n l : firstn (2 * n) (pairs l) = pairs (firstn n l).
Proof.
  revert l; induction n as [|n IH]; intros [|e l]; [reflexivity|reflexivity|rewrite ?firstn_nil, ?skipn_nil; reflexivity|].
  - replace (2 * S n)%nat with (S (S (2 * n))) by lia. change (pairs (e :: l)) with (sobj (fst e) :: snd e :: pairs l). cbn [firstn]. rewrite IH. reflexivity.
Qed.
Lemma pairs_skipn n l : skipn (2 * n) (pairs l) = pairs (skipn n l).
Proof.
  revert l; induction n as [|n IH]; intros [|e l]; [reflexivity|reflexivity|rewrite ?firstn_nil, ?skipn_nil; reflexivity|].
  - replace (2 * S n)%nat with (S (S (2 * n))) by lia. change (pairs (e :: l)) with (sobj (fst e) :: snd e :: pairs l). cbn [skipn]. apply IH.
Qed.

(** ** Insertion into a sorted list *)
Fixpoint put (k : str) (v : obj) (l : list entry) : list entry :=
  match l with
  | [] => [(k, v)]
  | (k', v') :: l' => if beq (snd k') (snd k) then (k', v) :: l' else if bytes_lt (snd k) (snd k') then (k, v) :: l else (k', v') :: put k v l'
  end.
Lemma put_names_ok k v l : put_names k v (pairs l) = Ok (pairs (put k v l)).
Proof.
  induction l as [|[k' v'] l IH]; [reflexivity|]. change (pairs ((k', v') :: l)) with (sobj k' :: v' :: pairs l). cbn [put_names sobj str_of bind put].
  destruct (beq (snd k') (snd k)); [reflexivity|]. destruct (bytes_lt (snd k) (snd k')); [reflexivity|]. rewrite IH. reflexivity.
Qed.
Lemma put_ne k v l : put k v l <> [].
Proof. destruct l as [|[k' v'] l]; cbn [put]; [discriminate|]. destruct (beq _ _); [discriminate|]. destruct (bytes_lt _ _); discriminate. Qed.
Lemma lt_neq a b : bytes_lt a b = true -> beq a b = false.
Proof. intros L. destruct (beq a b) eqn:E; [|reflexivity]. apply beq_eq in E. subst. rewrite bytes_lt_irrefl in L. discriminate. Qed.
Lemma lt_asym a b : bytes_lt a b = true -> bytes_lt b a = false.
Proof. intros L. destruct (bytes_lt b a) eqn:E; [|reflexivity]. pose proof (bytes_lt_trans _ _ _ L E) as X. rewrite bytes_lt_irrefl in X. discriminate. Qed.
Lemma put_pass k v a b : Forall (fun e => bytes_lt (snd (fst e)) (snd k) = true) a -> put k v (a ++ b) = a ++ put k v b.
Proof.
  induction 1 as [|[k' v'] a L F IH]; [reflexivity|]. cbn [app put]. cbn [fst] in L. rewrite (lt_neq _ _ L), (lt_asym _ _ L), IH. reflexivity.
Qed.
Lemma put_stop k v : forall a b, (exists e, In e a /\ bytes_lt (snd (fst e)) (snd k) = false) -> put k v (a ++ b) = put k v a ++ b.
Proof.
  induction a as [|[k' v'] a IH]; intros b (e & I & L); [destruct I|]. cbn [app put]. destruct (beq (snd k') (snd k)) eqn:E; [reflexivity|].
  destruct (bytes_lt (snd k) (snd k')) eqn:E2; [reflexivity|]. cbn [app]. rewrite IH; [reflexivity|]. destruct I as [<-|I]; [|eauto]. cbn [fst] in L.
  rewrite (bytes_lt_total _ _ E L) in E2. discriminate.
Qed.
Lemma put_in k v e : forall l, In e (put k v l) -> e = (k, v) \/ (exists w, e = (fst e, v) /\ In (fst e, w) l) \/ In e l.
Proof.
  induction l as [|[k' v'] l IH]; cbn [put].
  - intros [<-|[]]; auto.
  - destruct (beq (snd k') (snd k)).
    + intros [<-|I]; [right; left; exists v'; cbn; auto|right; right; right; exact I].
    + destruct (bytes_lt (snd k) (snd k')).
      * intros [<-|I]; auto.
      * intros [<-|I]; [right; right; left; reflexivity|]. destruct (IH I) as [->|[(w & E & J)|J]]; auto; [right; left; exists w; split; [exact E|right; exact J]|right; right; right; exact J].
Qed.
Lemma put_sorted k v l : StronglySorted before l -> StronglySorted before (put k v l).
Proof.
  induction 1 as [|[k' v'] l S1 IH F]; cbn [put]; [repeat constructor|].
  destruct (beq (snd k') (snd k)) eqn:E; [constructor; [exact S1|exact F]|].
  destruct (bytes_lt (snd k) (snd k')) eqn:L.
  - constructor; [constructor; assumption|]. constructor; [exact L|]. eapply Forall_impl; [|exact F]. intros e Fe. eapply bytes_lt_trans; [exact L|exact Fe].
  - constructor; [exact IH|]. rewrite Forall_forall in *. intros e I. destruct (put_in k v e l I) as [->|[(w & _ & J)|J]].
    + unfold before. cbn. apply bytes_lt_total; [|exact L]. destruct (beq (snd k) (snd k')) eqn:X; [apply beq_eq in X; rewrite X, beq_refl in E; discriminate|reflexivity].
    + apply F in J. exact J.
    + apply F, J.
Qed.
Lemma lookup_put q k v l : lookup q (put k v l) = if beq (snd k) q then Some v else lookup q l.
Proof.
  induction l as [|[k' v'] l IH]; cbn [put lookup]; [reflexivity|].
  destruct (beq (snd k') (snd k)) eqn:E.
  - apply beq_eq in E. cbn [lookup]. rewrite E. destruct (beq (snd k) q); reflexivity.
  - destruct (bytes_lt (snd k) (snd k')); cbn [lookup]; [reflexivity|]. rewrite IH. destruct (beq (snd k') q) eqn:F; [|reflexivity].
    destruct (beq (snd k) q) eqn:G; [|reflexivity]. apply beq_eq in F, G. rewrite F, G, beq_refl in E. discriminate.
Qed.

(** ** Limits *)
Definition built (h : heap) (t : ntree) : Prop :=
  (exists d, h (nref t) = Some (ODict d) /\ sorted d /\ shape t d) /\ Forall (stored h false) (kids_of t) /\ entries t <> [].
Lemma limits_get t d x y b c : hd_error (entries t) = Some x -> last (entries t) x = y -> dict_get (bs "Limits") d = Some (OArr [OStr b (snd (fst x)); OStr c (snd (fst y))]) -> limits false (entries t) d.
Proof. intros A B C. exists x, y, b, c. auto. Qed.
Lemma flat_ne h ks : Forall (stored h false) ks -> ks <> [] -> flat_map entries ks <> [].
Proof. intros F N. destruct ks as [|k ks]; [congruence|]. apply Forall_cons_iff in F as [F _]. apply stored_entries in F. cbn. destruct (entries k); [congruence|discriminate]. Qed.
Lemma set_limits_ok h t above d : built h t -> h (nref t) = Some (ODict d) ->
  exists l, set_limits h (nref t) (is_node t) above = Ok (if above then set (nref t) (Some (ODict (dict_add (bs "Limits") l d))) h else h) /\
    (forall d', dict_get (bs "Limits") d' = Some l -> limits false (entries t) d').
Proof.
  intros [(d0 & E & Sd & Sh) [K NE]] E'. assert (d0 = d) as -> by congruence. unfold set_limits. rewrite (dict_at_val h _ d E). cbn [bind].
  destruct t as [r l|r ks]; cbn [is_node kids_of shape nref entries] in *.
  - destruct Sh as [Na _]. rewrite (direct_find h _ d _ Na I). destruct l as [|e l]; [congruence|].
    change (pairs (e :: l)) with (sobj (fst e) :: snd e :: pairs l) at 1. cbn match. cbn [bind]. rewrite (pairs_last (e :: l) e) by discriminate.
    exists (OArr [sobj (fst e); sobj (fst (last (e :: l) e))]). split; [destruct above; [apply (set_key_val h r (bs "Limits") _ d E)|reflexivity]|].
    intros d' G. exists e, (last (e :: l) e), (fst (fst e)), (fst (fst (last (e :: l) e))). auto.
  - destruct Sh as [NK Ki]. rewrite (direct_find h _ d _ Ki I). destruct ks as [|k ks]; [congruence|]. cbn [map]. cbn match.
    assert (LIM : forall z pick, In z (k :: ks) -> exists x y b c, hd_error (entries z) = Some x /\ last (entries z) x = y /\
      limit_of h (ptr (nref z)) pick = match pick [OStr b (snd (fst x)); OStr c (snd (fst y))] with Some o => Ok [o] | None => UB end).
    { intros z pick Z. rewrite Forall_forall in K. pose proof (K z Z) as Hz. rewrite stored_iff in Hz. destruct Hz as [(dz & Ez & _ & _ & x & y & b & c & X & Y & L) _].
      exists x, y, b, c. split; [exact X|]. split; [exact Y|]. unfold limit_of, ref_of, ptr. cbn [bind]. rewrite <- surjective_pairing, Ez. rewrite (direct_find h _ dz _ L I). reflexivity. }
    destruct (LIM k (fun l => hd_error l) (or_introl eq_refl)) as (x & y0 & b & c0 & X & _ & Lx). rewrite Lx. cbn [hd_error bind].
    destruct (@exists_last _ (k :: ks) ltac:(discriminate)) as (i & z & EZ).
    assert (ELM : last (ptr (nref k) :: map (fun k => ptr (nref k)) ks) (ptr (nref k)) = ptr (nref z)).
    { change (ptr (nref k) :: map (fun k => ptr (nref k)) ks) with (map (fun k => ptr (nref k)) (k :: ks)). rewrite EZ, map_app. cbn [map]. apply last_last. }
    rewrite ELM. destruct (LIM z back ltac:(rewrite EZ; apply in_app_iff; right; left; reflexivity)) as (x1 & y & b1 & c & X1 & Y & Ly). rewrite Ly. cbn [back last bind app].
    eexists. split; [destruct above; [apply (set_key_val h r (bs "Limits") _ d E)|reflexivity]|].
    intros d' G. exists x, y, b, c. split; [|split; [|exact G]].
    + cbn [flat_map]. rewrite hd_app_ne; [exact X|]. destruct (entries k); [discriminate|discriminate].
    + assert (NZ : entries z <> []) by (intros Q; rewrite Q in X1; discriminate). rewrite EZ, flat_map_app. cbn [flat_map]. rewrite app_nil_r. rewrite last_app_ne by exact NZ. rewrite (last_default _ x x1) by exact NZ. exact Y.
Qed.
Lemma child_limits_ok s t d : built (dheap s) t -> NoDup (nrefs t) -> dheap s (nref t) = Some (ODict d) ->
  exists l, child_limits s (nref t) = Ok (mk_doc (set (nref t) (Some (ODict (dict_add (bs "Limits") l d))) (dheap s)) (dnext s)) /\
    stored (set (nref t) (Some (ODict (dict_add (bs "Limits") l d))) (dheap s)) false t.
Proof.
  intros B N E. pose proof B as [(d0 & E0 & Sd & Sh) [K NE]]. assert (d0 = d) as -> by congruence.
  destruct (set_limits_ok (dheap s) t true d B E) as (l & SL & LI). exists l. unfold child_limits. rewrite (dict_at_val _ _ d E). cbn [bind].
  rewrite (has_kids_shape t d Sh). unfold set_limits_of. rewrite SL. split; [reflexivity|].
  rewrite stored_iff. rewrite nrefs_eq in N. apply NoDup_cons_iff in N as [NI _]. split.
  - exists (dict_add (bs "Limits") l d). split; [apply set_same|]. split; [apply dict_add_sorted, Sd|]. split.
    + destruct t; cbn [shape] in *; dg; exact Sh.
    + apply LI. dg. reflexivity.
  - rewrite Forall_forall in *. intros k I. apply (stored_ext k (dheap s)); [|apply K, I]. intros q Q. apply set_other. intros ->. apply NI, in_flat_map. eauto.
Qed.

(** ** Splitting *)
Definition size (t : ntree) : nat := match t with NLeaf _ l => length l | NNode _ ks => length ks end.
Definition key_of (t : ntree) : list Z := bs (if is_node t then "Kids" else "Names").
Definition content (t : ntree) : list obj := match t with NLeaf _ l => pairs l | NNode _ ks => map (fun k => ptr (nref k)) ks end.
Definition lo (q : ref) (t : ntree) : ntree := match t with NLeaf _ l => NLeaf q (firstn 33 l) | NNode _ ks => NNode q (firstn 33 ks) end.
Definition hi (q : ref) (t : ntree) : ntree := match t with NLeaf _ l => NLeaf q (skipn 33 l) | NNode _ ks => NNode q (skipn 33 ks) end.
Lemma flat_firstn_skipn {A B} (f : A -> list B) n l : flat_map f (firstn n l) ++ flat_map f (skipn n l) = flat_map f l.
Proof. rewrite <- flat_map_app, firstn_skipn. reflexivity. Qed.
Lemma lo_hi_entries p q t : entries (lo p t) ++ entries (hi q t) = entries t.
Proof. destruct t; cbn [lo hi entries]; [apply firstn_skipn|apply flat_firstn_skipn]. Qed.
Lemma lo_hi_refs p q t : nrefs (lo p t) ++ nrefs (hi q t) = p :: flat_map nrefs (firstn 33 (kids_of t)) ++ q :: flat_map nrefs (skipn 33 (kids_of t)).
Proof. destruct t; reflexivity. Qed.
Definition len_limit (b : bool) : nat := if b then max_kids else (max_kids * 2)%nat.
Lemma split_len t : (len_limit (is_node t) <? length (content t))%nat = (65 <? size t)%nat.
Proof.
  destruct t as [r l|r ks]; unfold len_limit, max_kids; cbn [is_node content size]; [|rewrite map_length; reflexivity]. rewrite pairs_length.
  destruct (Nat.ltb_spec 65 (length l)); destruct (Nat.ltb_spec (65 * 2) (2 * length l)); try reflexivity; lia.
Qed.
Lemma lo_content t q : firstn (Nat.div2 (len_limit (is_node t)) + 1) (content t) = content (lo q t).
Proof.
  destruct t as [r l|r ks]; cbn [is_node content lo].
  - change (Nat.div2 (len_limit false) + 1)%nat with (2 * 33)%nat. apply pairs_firstn.
  - change (Nat.div2 (len_limit true) + 1)%nat with 33%nat. rewrite firstn_map. reflexivity.
Qed.
Lemma hi_content t q : skipn (Nat.div2 (len_limit (is_node t)) + 1) (content t) = content (hi q t).
Proof.
  destruct t as [r l|r ks]; cbn [is_node content hi].
  - change (Nat.div2 (len_limit false) + 1)%nat with (2 * 33)%nat. apply pairs_skipn.
  - change (Nat.div2 (len_limit true) + 1)%nat with 33%nat. rewrite skipn_map. reflexivity.
Qed.
Lemma lo_shape t q d : (65 < size t)%nat -> dict_get (key_of t) d = Some (OArr (content (lo q t))) -> (is_node t = false -> dict_get (bs "Kids") d = None) -> shape (lo q t) d.
Proof.
  unfold key_of. destruct t as [r l|r ks]; cbn [is_node content lo shape size]; intros L G H; [split; [exact G|apply H; reflexivity]|]. split; [|exact G].
  destruct ks; [cbn in L; lia|discriminate].
Qed.
Lemma hi_shape t q d : (65 < size t)%nat -> dict_get (key_of t) d = Some (OArr (content (hi q t))) -> (is_node t = false -> dict_get (bs "Kids") d = None) -> shape (hi q t) d.
Proof.
  unfold key_of. destruct t as [r l|r ks]; cbn [is_node content hi shape size]; intros L G H; [split; [exact G|apply H; reflexivity]|]. split; [|exact G].
  intros X. apply (f_equal (@length _)) in X. rewrite skipn_length in X. cbn in X. lia.
Qed.
Lemma lo_ref t q : nref (lo q t) = q. Proof. destruct t; reflexivity. Qed.
Lemma hi_ref t q : nref (hi q t) = q. Proof. destruct t; reflexivity. Qed.
Lemma lo_kids t q : kids_of (lo q t) = firstn 33 (kids_of t). Proof. destruct t; reflexivity. Qed.
Lemma hi_kids t q : kids_of (hi q t) = skipn 33 (kids_of t). Proof. destruct t; reflexivity. Qed.
Lemma lo_node t q : is_node (lo q t) = is_node t. Proof. destruct t; reflexivity. Qed.
Lemma hi_node t q : is_node (hi q t) = is_node t. Proof. destruct t; reflexivity. Qed.
Lemma lo_ne h t q : Forall (stored h false) (kids_of t) -> (65 < size t)%nat -> entries (lo q t) <> [].
Proof.
  destruct t as [r l|r ks]; cbn [kids_of size lo entries]; intros F L.
  - destruct l; [cbn in L; lia|discriminate].
  - destruct ks as [|k ks]; [cbn in L; lia|]. cbn [firstn]. apply (flat_ne h); [|discriminate]. apply Forall_cons_iff in F as [A B]. constructor; [exact A|].
    rewrite <- (firstn_skipn 32 ks) in B. apply Forall_app in B. tauto.
Qed.
Lemma hi_ne h t q : Forall (stored h false) (kids_of t) -> (65 < size t)%nat -> entries (hi q t) <> [].
Proof.
  destruct t as [r l|r ks]; cbn [kids_of size hi entries]; intros F L.
  - intros X. apply (f_equal (@length _)) in X. rewrite skipn_length in X. cbn in X. lia.
  - apply (flat_ne h).
    + rewrite <- (firstn_skipn 33 ks) in F. apply Forall_app in F. tauto.
    + intros X. apply (f_equal (@length _)) in X. rewrite skipn_length in X. cbn in X. lia.
Qed.
Lemma content_get t d : shape t d -> dict_get (key_of t) d = Some (OArr (content t)).
Proof. unfold key_of. destruct t; cbn; tauto. Qed.
Lemma levels_fold ks : forall k, In k ks -> (levels k <= fold_right (fun k m => Nat.max (levels k) m) O ks)%nat.
Proof. induction ks as [|a ks IH]; intros k; [intros []|]. cbn [fold_right In]. intros [->|I]; [lia|]. apply IH in I. lia. Qed.
Lemma levels_bound r ks n : (forall k, In k ks -> (levels k <= n)%nat) -> (levels (NNode r ks) <= S n)%nat.
Proof. intros H. cbn [levels]. apply le_n_S. induction ks as [|a ks IH]; [cbn; lia|]. cbn [fold_right]. apply Nat.max_lub; [apply H; left; reflexivity|apply IH]. intros k I. apply H. right. exact I. Qed.
Lemma lo_levels t q : (levels (lo q t) <= levels t)%nat.
Proof.
  destruct t as [r l|r ks]; cbn [lo]; [reflexivity|]. apply levels_bound. intros k I. apply levels_fold. rewrite <- (firstn_skipn 33 ks). apply in_app_iff. auto.
Qed.
Lemma hi_levels t q : (levels (hi q t) <= levels t)%nat.
Proof.
  destruct t as [r l|r ks]; cbn [hi]; [reflexivity|]. apply levels_bound. intros k I. apply levels_fold. rewrite <- (firstn_skipn 33 ks). apply in_app_iff. auto.
Qed.
