(** Proofs about documents that are written while they are made *)
From Coq Require Import String Lia.
From Verif Require Import Base TokModel WriteModel DictProofs TokProofs LexProofs ReadEq ChainProofs ObjSpec ObjProofs ParseProofs FilterModel ListModel ListProofs OwnModel LinkProofs UpdateModel UpdateSpec UpdateProofs StreamModel StreamSpec StreamProofs
  ImmediateModel ImmediateSpec.
Local Open Scope Z_scope.
Local Notation dict := (list (list Z * obj)) (only parsing).

Lemma ref_eqb_sym a b : ref_eqb a b = ref_eqb b a. Proof. unfold ref_eqb. rewrite (Z.eqb_sym (fst a)), (Z.eqb_sym (snd a)). reflexivity. Qed.
Lemma at_app {A} (l m : list (ref * A)) r : at_ref (l ++ m) r = match at_ref l r with Some a => Some a | None => at_ref m r end.
Proof. induction l as [|[q a] l IH]; cbn [app at_ref]; [reflexivity|]. destruct (ref_eqb q r); auto. Qed.
Lemma at_change {A} (l : list (ref * A)) r a q : at_ref (change l r a) q = if ref_eqb r q then match at_ref l r with Some _ => Some a | None => None end else at_ref l q.
Proof.
  induction l as [|[p b] l IH]; cbn [change at_ref]; [destruct (ref_eqb r q); reflexivity|].
  destruct (ref_eqb p r) eqn:E; cbn [at_ref].
  - apply ref_eqb_iff in E. subst p. destruct (ref_eqb r q); reflexivity.
  - destruct (ref_eqb p q) eqn:F; [|exact IH]. apply ref_eqb_iff in F. subst p. rewrite ref_eqb_sym, E. reflexivity.
Qed.
Lemma at_without {A} (l : list (ref * A)) r q : at_ref (without l r) q = if ref_eqb r q then None else at_ref l q.
Proof.
  unfold without. induction l as [|[p b] l IH]; cbn [filter at_ref fst]; [destruct (ref_eqb r q); reflexivity|].
  destruct (ref_eqb p r) eqn:E; cbn [negb].
  - rewrite IH. apply ref_eqb_iff in E. subst p. destruct (ref_eqb r q); reflexivity.
  - cbn [at_ref]. rewrite IH. destruct (ref_eqb p q) eqn:F; [|reflexivity]. apply ref_eqb_iff in F. subst p. rewrite ref_eqb_sym, E. reflexivity.
Qed.
Lemma at_in {A} (l : list (ref * A)) r a : at_ref l r = Some a -> In (r, a) l.
Proof. induction l as [|[p b] l IH]; cbn [at_ref]; [discriminate|]. destruct (ref_eqb p r) eqn:E; [|right; auto]. apply ref_eqb_iff in E. subst. intros [= ->]. left. reflexivity. Qed.
Lemma open_without d l r q : outputs d = without l r -> is_open d q = negb (ref_eqb r q) && existsb (fun x => ref_eqb (fst x) q) l.
Proof.
  unfold is_open. intros ->. unfold without. induction l as [|[p b] l IH]; cbn [filter existsb fst]; [rewrite andb_false_r; reflexivity|].
  destruct (ref_eqb p r) eqn:E; cbn [negb].
  - rewrite IH. apply ref_eqb_iff in E. subst p. destruct (ref_eqb r q); reflexivity.
  - cbn [existsb fst]. rewrite IH. destruct (ref_eqb p q) eqn:F; [|reflexivity]. apply ref_eqb_iff in F. subst p. rewrite ref_eqb_sym, E. reflexivity.
Qed.
Lemma at_open d r ts : at_ref (outputs d) r = Some ts -> is_open d r = true.
Proof. intro H. apply at_in in H. unfold is_open. apply existsb_exists. exists (r, ts). split; [exact H|apply ref_eqb_refl]. Qed.
Lemma content_snoc r calls x : content r (calls ++ [x]) = given r (content r calls) x.
Proof. unfold content. apply fold_left_app. Qed.
Lemma overwrite_end a : overwrite (a ++ bs "endobj" ++ [10]) = a ++ bs "stream" ++ [10].
Proof.
  unfold overwrite. rewrite app_length. change (length (bs "endobj" ++ [10])) with 7%nat. replace (length a + 7 - 7)%nat with (length a + 0)%nat by lia.
  rewrite firstn_app_2. cbn [firstn]. rewrite app_nil_r. reflexivity.
Qed.
Lemma skipn_more {A} n (a b : list A) : (n <= length a)%nat -> skipn n (a ++ b) = skipn n a ++ b.
Proof. intro H. rewrite skipn_app. replace (n - length a)%nat with 0%nat by lia. reflexivity. Qed.

Definition written (d : sdoc) (r : ref) : Prop := exists off, In (r, off) (table d).

(** What holds after calls that did not fail *)
Record good (calls : list op) (d : sdoc) : Prop := mk_good {
  g_obj : forall r v, at_ref (objects d) r = Some v -> snd r = 0 /\ 0 <= fst r < count d;
  g_str : forall r s, streams d r = Some s -> snd r = 0 /\ 0 <= fst r < count d;
  g_dir : forall r len l k, streams d r = Some (Direct len l k) -> k = false /\ snd l = 0 /\ fst l < count d /\ streams d l = None /\ exists n, at_ref (objects d) l = Some (ONum n);
  g_inj : forall r r' len len' l k k', streams d r = Some (Direct len l k) -> streams d r' = Some (Direct len' l k') -> r = r';
  g_len : forall r len l k, streams d r = Some (Direct len l k) -> written d r -> len = Z.of_nat (length (content r calls)) /\ (is_open d r = true \/ at_ref (objects d) l = Some (ONum len));
  g_unw : forall r len l k, streams d r = Some (Direct len l k) -> ~ written d r -> len = 0 /\ is_open d r = false /\ exists e, at_ref (objects d) r = Some (ODict e) /\ dict_get (bs "Length") e = Some (ORef (fst l) (snd l));
  g_live : forall r, written d r -> at_ref (objects d) r <> None -> last d = Some r;
  g_last : forall r, last d = Some r -> written d r /\ at_ref (objects d) r <> None;
  g_wdir : forall r, written d r -> exists len l k, streams d r = Some (Direct len l k);
  g_out : forall r, is_open d r = true -> streams d r <> None;
  g_pos : 0 <= count d }.
(** An object with a direct stream in the file: the last one is not finished yet. *)
Definition placed (o : wopts) (calls : list op) (d : sdoc) (r : ref) (off : Z) (e : dict) (l : ref) : Prop :=
  0 <= off <= Z.of_nat (length (dev d)) /\ In (r, off) (table d) /\ (exists len k, streams d r = Some (Direct len l k)) /\
  exists h, value_text o r e h /\
    ((last d = Some r /\ skipn (Z.to_nat off) (dev d) = h ++ content r calls) \/
     (last d <> Some r /\ at_ref (objects d) r = None /\ exists k, skipn (Z.to_nat off) (dev d) = h ++ content r calls ++ stream_end ++ k)).

Lemma good_start header : good [] (start header).
Proof. split; cbn [start objects streams table last at_ref count]; intros; try discriminate; try lia; destruct H; contradiction. Qed.
Lemma finish_good calls d : good calls d -> good calls (finish_last d).
Proof.
  intros [GO GS GD GI GL GU GV GA GW GT GP]. unfold finish_last. destruct (last d) as [q|] eqn:L; [|split; try assumption; rewrite L; discriminate || assumption].
  destruct (GA q eq_refl) as [Wq Aq]. destruct (GW q Wq) as (lenq & lq & kq & Sq).
  split; unfold written, is_open in *; cbn [set_last with_objects with_dev objects streams table last outputs count] in *; try assumption.
  - intros r v H. rewrite at_without in H. destruct (ref_eqb q r); [discriminate|]. exact (GO r v H).
  - intros r len l k H. destruct (GD r len l k H) as (-> & A & B & C & n & N). repeat split; try assumption. exists n. rewrite at_without.
    destruct (ref_eqb q l) eqn:E; [|exact N]. apply ref_eqb_iff in E. subst l. congruence.
  - intros r len l k H W. destruct (GL r len l k H W) as [A [B|B]]; (split; [exact A|]); [left; exact B|right]. rewrite at_without.
    destruct (ref_eqb q l) eqn:E; [|exact B]. apply ref_eqb_iff in E. subst l. destruct (GD r len q k H) as (_ & _ & _ & C & _). congruence.
  - intros r len l k H W. destruct (GU r len l k H W) as (A & B & e & C & D). repeat split; try assumption. exists e. split; [|exact D]. rewrite at_without.
    destruct (ref_eqb q r) eqn:E; [|exact C]. apply ref_eqb_iff in E. subst r. contradiction.
  - intros r W N. rewrite at_without in N. destruct (ref_eqb q r) eqn:E; [contradiction|]. apply ref_eqb_false in E. pose proof (GV r W N) as X. congruence.
  - discriminate.
Qed.
Lemma finish_placed o calls d r off e l : placed o calls d r off e l -> placed o calls (finish_last d) r off e l.
Proof.
  intros (R & I & S0 & h & V & P). unfold finish_last. destruct (last d) as [q|] eqn:L.
  - unfold placed. cbn [set_last with_objects with_dev objects streams table last dev]. rewrite app_length. split; [lia|]. split; [exact I|]. split; [exact S0|].
    exists h. split; [exact V|right]. split; [discriminate|]. rewrite at_without. rewrite skipn_more by lia. destruct P as [[[= ->] P]|(N & P0 & k & P)].
    + rewrite ref_eqb_refl. split; [reflexivity|]. exists []. rewrite P, app_nil_r, <- app_assoc. reflexivity.
    + split; [destruct (ref_eqb q r); [reflexivity|exact P0]|]. exists (k ++ stream_end). rewrite P. rewrite <- !app_assoc. reflexivity.
  - unfold placed. rewrite L. repeat split; try lia; try assumption. exists h. auto.
Qed.
Lemma finish_same d : streams (finish_last d) = streams d /\ outputs (finish_last d) = outputs d /\ last (finish_last d) = None /\ table (finish_last d) = table d /\ opened (finish_last d) = opened d /\ count (finish_last d) = count d.
Proof. unfold finish_last. destruct (last d) eqn:L; cbn; auto 10. Qed.
Lemma opened_good calls d : good calls d -> good calls (set_opened d).
Proof. intros [GO GS GD GI GL GU GV GA GW GT GP]. split; assumption. Qed.
Lemma open_direct o r ts d d' len l : (forall q, wflate o q = false) -> streams d r = Some (Direct len l false) -> open_output o r ts d = (Ok tt, d') ->
  exists v t, let d1 := finish_last (set_opened d) in at_ref (objects d1) r = Some v /\ write (wfl o) v = Ok t /\ is_open d r = false /\
    d' = mk_sdoc (objects d1) (streams d1) (count d1)
      (dev d1 ++ dec (fst r) ++ [32] ++ dec (snd r) ++ bs " obj" ++ (if wtight o then [] else [10]) ++ t ++ [10] ++ bs "stream" ++ [10]) (Some r) true
      (table d1 ++ [(r, Z.of_nat (length (dev d1)))]) ((r, ts) :: outputs d1).
Proof.
  intros F S0 H. unfold open_output in H. destruct (at_ref (objects d) r) as [v0|] eqn:A; [|discriminate]. rewrite S0 in H.
  destruct (is_open d r) eqn:IO; [discriminate|]. unfold write_object in H. destruct (finish_same (set_opened d)) as (E1 & E2 & E3 & E4 & E5 & E6).
  set (d1 := finish_last (set_opened d)) in *. rewrite E1 in H. cbn [set_opened streams] in H. rewrite S0 in H.
  destruct (at_ref (objects d1) r) as [v|] eqn:V; [|discriminate]. rewrite F in H. destruct (write (wfl o) v) as [t| | |] eqn:W; try discriminate.
  exists v, t. cbn zeta. repeat split; try assumption. unfold add_entry, with_dev, set_last, with_outputs in H. cbn [objects streams count dev last opened table outputs] in H.
  apply pair_equal_spec in H. destruct H as [_ H]. rewrite <- H, E5. cbn [set_opened opened]. f_equal.
  match goal with |- overwrite ?X = _ => replace X with ((dev d1 ++ dec (fst r) ++ [32] ++ dec (snd r) ++ bs " obj" ++ (if wtight o then [] else [10]) ++ t ++ [10]) ++ bs "endobj" ++ [10]) by (rewrite <- !app_assoc; reflexivity) end.
  rewrite overwrite_end. rewrite <- !app_assoc. reflexivity.
Qed.
Lemma open_memory o r ts d d' : (forall len l, streams d r <> Some (Direct len l false)) -> open_output o r ts d = (Ok tt, d') ->
  exists x fs v, at_ref (objects d) r = Some v /\ streams d r = Some (Memory x fs) /\ is_open d r = false /\ d' = with_outputs (with_stream d r (Memory [] fs)) ((r, ts) :: outputs d).
Proof.
  intros N H. unfold open_output in H. destruct (at_ref (objects d) r) as [v0|] eqn:A; [|discriminate]. destruct (streams d r) as [[x fs|len l k]|] eqn:S0; [| |discriminate].
  - destruct (is_open d r) eqn:IO; [discriminate|]. injection H as <-. exists x, fs, v0. auto.
  - destruct (is_open d r); [discriminate|]. destruct k; [discriminate|]. exfalso. exact (N len l eq_refl).
Qed.
Lemma put_stream_at f r s q : put_stream f r s q = if ref_eqb r q then Some s else f q.
Proof. unfold put_stream. rewrite ref_eqb_sym. reflexivity. Qed.
Lemma written_dec d r : written d r \/ ~ written d r.
Proof.
  unfold written. induction (table d) as [|[q off] t [[x IH]|IH]].
  - right. intros [x []].
  - left. exists x. right. exact IH.
  - destruct (ref_eqb q r) eqn:E.
    + apply ref_eqb_iff in E. subst. left. exists off. left. reflexivity.
    + apply ref_eqb_false in E. right. intros [x [[= ? ?]|H]]; [contradiction|]. apply IH. exists x. exact H.
Qed.
Lemma given_other r x q acc : (forall ts, x <> Open q ts) -> (forall b, x <> Put q b) -> r = q -> given r acc x = acc.
Proof. intros A B ->. destruct x; cbn [given]; try reflexivity; destruct (ref_eqb r q) eqn:E; try reflexivity; apply ref_eqb_iff in E; subst; [destruct (A ts)|destruct (B b)]; reflexivity. Qed.

Lemma new_good calls d v : good calls d -> good (calls ++ [New v]) (snd (new_object v d)).
Proof.
  intros [GO GS GD GI GL GU GV GA GW GT GP]. unfold new_object.
  assert (NN : forall r w, at_ref (objects d) r = Some w -> at_ref (objects d ++ [((count d, 0), v)]) r = Some w) by (intros r w H; rewrite at_app, H; reflexivity).
  split; unfold written, is_open in *; cbn [snd objects streams table last outputs count] in *; try assumption.
  - intros r w H. rewrite at_app in H. destruct (at_ref (objects d) r) eqn:E; [destruct (GO r o E); lia|]. cbn [at_ref] in H. destruct (ref_eqb (count d, 0) r) eqn:F; [|discriminate].
    apply ref_eqb_iff in F. subst r. cbn. lia.
  - intros r s H. destruct (GS r s H). lia.
  - intros r len l k H. destruct (GD r len l k H) as (A & B & C & D & n & E). repeat split; try assumption; try lia. exists n. apply NN. exact E.
  - intros r len l k H W. rewrite content_snoc. cbn [given]. destruct (GL r len l k H W) as [A [B|B]]; (split; [exact A|]); [left; exact B|right; apply NN; exact B].
  - intros r len l k H W. destruct (GU r len l k H W) as (A & B & e & C & D). repeat split; try assumption. exists e. split; [apply NN; exact C|exact D].
  - intros r W N. apply GV; [exact W|]. rewrite at_app in N. destruct (at_ref (objects d) r) eqn:E; [discriminate|]. cbn [at_ref] in N. destruct (ref_eqb (count d, 0) r) eqn:F; [|contradiction].
    apply ref_eqb_iff in F. subst r. destruct (GW _ W) as (len & l & k & S0). destruct (GS _ _ S0) as [_ X]. cbn in X. lia.
  - intros r H. destruct (GA r H) as [A B]. split; [exact A|]. rewrite at_app. destruct (at_ref (objects d) r); [discriminate|contradiction].
  - lia.
Qed.
Lemma stream_good calls d d' r : good calls d -> create_stream r d = (Ok tt, d') -> good (calls ++ [Stream r]) d'.
Proof.
  intros G H. assert (G0 : good (calls ++ [Stream r]) d).
  { destruct G. split; try assumption. intros q len l k A B. rewrite content_snoc. cbn [given]. eauto. }
  clear G. destruct G0 as [GO GS GD GI GL GU GV GA GW GT GP]. unfold create_stream in H. destruct (at_ref (objects d) r) as [v|] eqn:V; [|discriminate].
  destruct (streams d r) as [s|] eqn:S0; [injection H as <-; split; assumption|]. destruct v as [| | | | | | | |e]; try discriminate.
  destruct (GO r _ V) as [R1 R2].
  assert (NW : ~ written d r) by (intro W; destruct (GW r W) as (? & ? & ? & X); congruence).
  destruct (opened d) eqn:OP.
  - injection H as <-. split; unfold written, is_open in *; cbn [with_stream objects streams table last outputs count] in *; try assumption.
    + intros q s H. rewrite put_stream_at in H. destruct (ref_eqb r q) eqn:E; [|exact (GS q s H)]. apply ref_eqb_iff in E. subst q. auto.
    + intros q len l k H. rewrite put_stream_at in H. destruct (ref_eqb r q) eqn:E; [discriminate|]. destruct (GD q len l k H) as (A & B & C & D & n & F). repeat split; try assumption; [|exists n; exact F].
      rewrite put_stream_at. destruct (ref_eqb r l) eqn:E2; [|exact D]. apply ref_eqb_iff in E2. subst l. congruence.
    + intros q q' len len' l k k' H H'. rewrite put_stream_at in H, H'. destruct (ref_eqb r q); [discriminate|]. destruct (ref_eqb r q'); [discriminate|]. eapply GI; eassumption.
    + intros q len l k H. rewrite put_stream_at in H. destruct (ref_eqb r q); [discriminate|]. apply (GL q len l k H).
    + intros q len l k H. rewrite put_stream_at in H. destruct (ref_eqb r q); [discriminate|]. apply (GU q len l k H).
    + intros q W. destruct (GW q W) as (len & l & k & X). exists len, l, k. rewrite put_stream_at. destruct (ref_eqb r q) eqn:E; [|exact X]. apply ref_eqb_iff in E. subst q. congruence.
    + intros q X. rewrite put_stream_at. destruct (ref_eqb r q); [discriminate|]. exact (GT q X).
  - unfold new_object in H. cbn [fst snd objects] in H. injection H as <-.
    assert (NC : at_ref (objects d) (count d, 0) = None).
    { destruct (at_ref (objects d) (count d, 0)) eqn:X; [|reflexivity]. destruct (GO _ _ X) as [_ Y]. cbn in Y. lia. }
    assert (NS : streams d (count d, 0) = None).
    { destruct (streams d (count d, 0)) eqn:X; [|reflexivity]. destruct (GS _ _ X) as [_ Y]. cbn in Y. lia. }
    assert (RC : ref_eqb r (count d, 0) = false) by (apply ref_eqb_false; intros ->; cbn in R2; lia).
    set (e1 := dict_add (bs "Length") (ORef (count d) 0) e).
    set (obs := change (objects d ++ [((count d, 0), ONum 0)]) r (ODict e1)).
    assert (AT : forall q, at_ref obs q = if ref_eqb r q then Some (ODict e1) else match at_ref (objects d) q with Some w => Some w | None => if ref_eqb (count d, 0) q then Some (ONum 0) else None end).
    { intro q. unfold obs. rewrite at_change, !at_app. cbn [at_ref]. rewrite V. destruct (ref_eqb r q); reflexivity. }
    split; unfold written, is_open in *; cbn [with_stream with_objects objects streams table last outputs count] in *; try assumption.
    + intros q w H. rewrite AT in H. destruct (ref_eqb r q) eqn:E; [apply ref_eqb_iff in E; subst q; lia|]. destruct (at_ref (objects d) q) eqn:E2; [destruct (GO q o E2); lia|].
      destruct (ref_eqb (count d, 0) q) eqn:E3; [|discriminate]. apply ref_eqb_iff in E3. subst q. cbn. lia.
    + intros q s H. rewrite put_stream_at in H. destruct (ref_eqb r q) eqn:E; [|destruct (GS q s H); lia]. apply ref_eqb_iff in E. subst q. lia.
    + intros q len l k H. rewrite put_stream_at in H. destruct (ref_eqb r q) eqn:E.
      * injection H as <- <- <-. cbn [fst snd]. repeat split; try lia; [rewrite put_stream_at, RC; exact NS|]. exists 0. rewrite AT, RC, NC, ref_eqb_refl. reflexivity.
      * destruct (GD q len l k H) as (A & B & C & D & n & F). repeat split; try assumption; try lia.
        { rewrite put_stream_at. destruct (ref_eqb r l) eqn:E2; [|exact D]. apply ref_eqb_iff in E2. subst l. congruence. }
        { exists n. rewrite AT, F. destruct (ref_eqb r l) eqn:E2; [|reflexivity]. apply ref_eqb_iff in E2. subst l. congruence. }
    + intros q q' len len' l k k' H H'. rewrite put_stream_at in H, H'. destruct (ref_eqb r q) eqn:E, (ref_eqb r q') eqn:E'.
      * apply ref_eqb_iff in E, E'. congruence.
      * injection H as <- <- <-. destruct (GD q' _ _ _ H') as (_ & _ & X & _). cbn in X. lia.
      * injection H' as <- <- <-. destruct (GD q _ _ _ H) as (_ & _ & X & _). cbn in X. lia.
      * eapply GI; eassumption.
    + intros q len l k H W. rewrite put_stream_at in H. destruct (ref_eqb r q) eqn:E; [apply ref_eqb_iff in E; subst q; contradiction|].
      destruct (GL q len l k H W) as [A [B|B]]; (split; [exact A|]); [left; exact B|right]. rewrite AT, B. destruct (ref_eqb r l) eqn:E2; [|reflexivity]. apply ref_eqb_iff in E2. subst l. congruence.
    + intros q len l k H W. rewrite put_stream_at in H. destruct (ref_eqb r q) eqn:E.
      * injection H as <- <- <-. apply ref_eqb_iff in E. subst q. split; [reflexivity|]. split.
        { destruct (existsb _ (outputs d)) eqn:X; [|reflexivity]. destruct (GT r X S0). }
        exists e1. rewrite AT, ref_eqb_refl. split; [reflexivity|]. apply get_add_same.
      * destruct (GU q len l k H W) as (A & B & e' & C & D). repeat split; try assumption. exists e'. split; [|exact D]. rewrite AT, E, C. reflexivity.
    + intros q W N. apply GV; [exact W|]. intro X. apply N. rewrite AT, X. destruct (ref_eqb r q) eqn:E; [apply ref_eqb_iff in E; subst q; congruence|].
      destruct (ref_eqb (count d, 0) q) eqn:E3; [|reflexivity]. apply ref_eqb_iff in E3. subst q. destruct (GW _ W) as (? & ? & ? & Y). congruence.
    + intros q L. destruct (GA q L) as [A B]. split; [exact A|]. rewrite AT. destruct (ref_eqb r q); [discriminate|]. destruct (at_ref (objects d) q); [discriminate|contradiction].
    + intros q W. destruct (GW q W) as (len & l & k & X). exists len, l, k. rewrite put_stream_at. destruct (ref_eqb r q) eqn:E; [|exact X]. apply ref_eqb_iff in E. subst q. congruence.
    + intros q X. rewrite put_stream_at. destruct (ref_eqb r q); [discriminate|]. exact (GT q X).
    + lia.
Qed.
Lemma good_mono calls d x : (forall r acc, given r acc x = acc) -> good calls d -> good (calls ++ [x]) d.
Proof. intros N []. split; try assumption. intros q len l k A B. rewrite content_snoc, N. eauto. Qed.
Lemma set_good calls d d' r k v : k <> bs "Length" -> good calls d -> set_entry r k v d = (Ok tt, d') -> good (calls ++ [Set_ r k v]) d'.
Proof.
  intros K G H. apply (good_mono _ _ (Set_ r k v)) in G; [|reflexivity]. destruct G as [GO GS GD GI GL GU GV GA GW GT GP]. unfold set_entry in H.
  destruct (at_ref (objects d) r) as [[| | | | | | | |e]|] eqn:V; try discriminate. injection H as <-.
  assert (AT : forall q, at_ref (change (objects d) r (ODict (dict_add k v e))) q = if ref_eqb r q then Some (ODict (dict_add k v e)) else at_ref (objects d) q) by (intro q; rewrite at_change, V; reflexivity).
  set (obs := change (objects d) r (ODict (dict_add k v e))) in *.
  assert (NU : forall q n, at_ref (objects d) q = Some (ONum n) -> at_ref obs q = Some (ONum n)).
  { intros q n X. rewrite AT. destruct (ref_eqb r q) eqn:E; [|exact X]. apply ref_eqb_iff in E. subst q. congruence. }
  split; unfold written, is_open in *; cbn [with_objects objects streams table last outputs count] in *; try assumption.
  - intros q w H. rewrite AT in H. destruct (ref_eqb r q) eqn:E; [apply ref_eqb_iff in E; subst q|]; eapply GO; eassumption.
  - intros q len l j H. destruct (GD q len l j H) as (A & B & C & D & n & F). repeat split; try assumption. exists n. apply NU. exact F.
  - intros q len l j H W. destruct (GL q len l j H W) as [A [B|B]]; (split; [exact A|]); [left; exact B|right; apply NU; exact B].
  - intros q len l j H W. destruct (GU q len l j H W) as (A & B & e' & C & D). repeat split; try assumption. rewrite AT. destruct (ref_eqb r q) eqn:E; [|exists e'; auto].
    apply ref_eqb_iff in E. subst q. eexists. split; [reflexivity|]. rewrite C in V. injection V as ->. rewrite get_add_other; [exact D|]. apply beq_neq. congruence.
  - intros q W N. apply GV; [exact W|]. rewrite AT in N. destruct (ref_eqb r q) eqn:E; [|exact N]. apply ref_eqb_iff in E. subst q. congruence.
  - intros q L. destruct (GA q L) as [A B]. split; [exact A|]. rewrite AT. destruct (ref_eqb r q); [discriminate|exact B].
Qed.
Lemma put_good calls d d' r b : good calls d -> put_bytes r b d = (Ok tt, d') -> good (calls ++ [Put r b]) d'.
Proof.
  intros [GO GS GD GI GL GU GV GA GW GT GP] H. unfold put_bytes in H. destruct (is_open d r) eqn:IO; [|discriminate]. destruct (at_ref (objects d) r) as [v|] eqn:V; [|discriminate].
  destruct (streams d r) as [[x fs|len0 l0 k0]|] eqn:S0; [| |discriminate]; apply pair_equal_spec in H; destruct H as [_ <-].
  - split; unfold written, is_open in *; cbn [with_stream objects streams table last outputs count] in *; try assumption.
    + intros q s H. rewrite put_stream_at in H. destruct (ref_eqb r q) eqn:E; [apply ref_eqb_iff in E; subst q|]; eapply GS; eassumption.
    + intros q len l k H. rewrite put_stream_at in H. destruct (ref_eqb r q) eqn:E; [discriminate|]. destruct (GD q len l k H) as (A & B & C & D & n & F). repeat split; try assumption; [|exists n; exact F].
      rewrite put_stream_at. destruct (ref_eqb r l) eqn:E2; [|exact D]. apply ref_eqb_iff in E2. subst l. congruence.
    + intros q q' len len' l k k' H H'. rewrite put_stream_at in H, H'. destruct (ref_eqb r q); [discriminate|]. destruct (ref_eqb r q'); [discriminate|]. eapply GI; eassumption.
    + intros q len l k H W. rewrite put_stream_at in H. destruct (ref_eqb r q) eqn:E; [discriminate|]. rewrite content_snoc. cbn [given]. rewrite E. apply (GL q len l k H W).
    + intros q len l k H. rewrite put_stream_at in H. destruct (ref_eqb r q); [discriminate|]. apply (GU q len l k H).
    + intros q W. destruct (GW q W) as (len & l & k & X). exists len, l, k. rewrite put_stream_at. destruct (ref_eqb r q) eqn:E; [|exact X]. apply ref_eqb_iff in E. subst q. congruence.
    + intros q X. rewrite put_stream_at. destruct (ref_eqb r q); [discriminate|]. exact (GT q X).
  - assert (W0 : written d r). { destruct (written_dec d r) as [W|W]; [exact W|]. destruct (GU r len0 l0 k0 S0 W) as (_ & X & _). congruence. }
    split; unfold written, is_open in *; cbn [with_stream with_dev objects streams table last outputs count] in *; try assumption.
    + intros q s H. rewrite put_stream_at in H. destruct (ref_eqb r q) eqn:E; [apply ref_eqb_iff in E; subst q|]; eapply GS; eassumption.
    + intros q len l k H. rewrite put_stream_at in H.
      assert (X : exists len', streams d q = Some (Direct len' l k)). { destruct (ref_eqb r q) eqn:E; [|exists len; exact H]. apply ref_eqb_iff in E. subst q. injection H as <- <- <-. exists len0. exact S0. }
      destruct X as [len' X]. destruct (GD q len' l k X) as (A & B & C & D & n & F). repeat split; try assumption; [|exists n; exact F].
      rewrite put_stream_at. destruct (ref_eqb r l) eqn:E2; [|exact D]. apply ref_eqb_iff in E2. subst l. congruence.
    + intros q q' len len' l k k' H H'. rewrite put_stream_at in H, H'.
      assert (X : exists j1 j2, streams d q = Some (Direct j1 l j2)). { destruct (ref_eqb r q) eqn:E; [|exists len, k; exact H]. apply ref_eqb_iff in E. subst q. injection H as <- <- <-. exists len0, k0. exact S0. }
      assert (X' : exists j1 j2, streams d q' = Some (Direct j1 l j2)). { destruct (ref_eqb r q') eqn:E; [|exists len', k'; exact H']. apply ref_eqb_iff in E. subst q'. injection H' as <- <- <-. exists len0, k0. exact S0. }
      destruct X as (j1 & j2 & X), X' as (j3 & j4 & X'). eapply GI; eassumption.
    + intros q len l k H W. rewrite put_stream_at in H. rewrite content_snoc. cbn [given]. destruct (ref_eqb r q) eqn:E; [|apply (GL q len l k H W)].
      apply ref_eqb_iff in E. subst q. injection H as <- <- <-. destruct (GL r _ _ _ S0 W) as [A B]. split; [rewrite app_length; lia|left; exact IO].
    + intros q len l k H W. rewrite put_stream_at in H. destruct (ref_eqb r q) eqn:E; [apply ref_eqb_iff in E; subst q; contradiction|]. apply (GU q len l k H W).
    + intros q W. destruct (GW q W) as (len & l & k & X). rewrite put_stream_at. destruct (ref_eqb r q) eqn:E; eauto.
    + intros q X. rewrite put_stream_at. destruct (ref_eqb r q); [discriminate|]. exact (GT q X).
Qed.
Lemma close_good calls d d' r : good calls d -> close_output r d = (Ok tt, d') -> good (calls ++ [Close r]) d'.
Proof.
  intros G H. apply (good_mono _ _ (Close r)) in G; [|reflexivity]. destruct G as [GO GS GD GI GL GU GV GA GW GT GP]. unfold close_output in H.
  destruct (at_ref (outputs d) r) as [ts|] eqn:O; [|discriminate]. apply at_open in O. destruct (at_ref (objects d) r) as [[| | | | | | | |e]|] eqn:V; try discriminate.
  set (e1 := set_filter ts e) in *.
  assert (IO : forall q l, existsb (fun x : ref * list ftype => ref_eqb (fst x) q) (without l r) = negb (ref_eqb r q) && existsb (fun x : ref * list ftype => ref_eqb (fst x) q) l).
  { intros q l. exact (open_without (with_outputs d (without l r)) l r q eq_refl). }
  assert (AT : forall q, at_ref (change (objects d) r (ODict e1)) q = if ref_eqb r q then Some (ODict e1) else at_ref (objects d) q) by (intro q; rewrite at_change, V; reflexivity).
  set (obs := change (objects d) r (ODict e1)) in *.
  assert (NU : forall q n, at_ref (objects d) q = Some (ONum n) -> at_ref obs q = Some (ONum n)).
  { intros q n X. rewrite AT. destruct (ref_eqb r q) eqn:E; [|exact X]. apply ref_eqb_iff in E. subst q. congruence. }
  destruct (streams d r) as [[x fs|len0 l0 k0]|] eqn:S0; [| |discriminate].
  - apply pair_equal_spec in H. destruct H as [_ <-]. split; unfold written, is_open in *; cbn [with_stream with_outputs with_objects objects streams table last outputs count] in *; try assumption.
    + intros q w H. rewrite AT in H. destruct (ref_eqb r q) eqn:E; [apply ref_eqb_iff in E; subst q|]; eapply GO; eassumption.
    + intros q s H. rewrite put_stream_at in H. destruct (ref_eqb r q) eqn:E; [apply ref_eqb_iff in E; subst q|]; eapply GS; eassumption.
    + intros q len l k H. rewrite put_stream_at in H. destruct (ref_eqb r q) eqn:E; [discriminate|]. destruct (GD q len l k H) as (A & B & C & D & n & F). repeat split; try assumption; [|exists n; apply NU; exact F].
      rewrite put_stream_at. destruct (ref_eqb r l) eqn:E2; [|exact D]. apply ref_eqb_iff in E2. subst l. congruence.
    + intros q q' len len' l k k' H H'. rewrite put_stream_at in H, H'. destruct (ref_eqb r q); [discriminate|]. destruct (ref_eqb r q'); [discriminate|]. eapply GI; eassumption.
    + intros q len l k H W. rewrite put_stream_at in H. destruct (ref_eqb r q) eqn:E; [discriminate|]. rewrite IO, E. destruct (GL q len l k H W) as [A [B|B]]; (split; [exact A|]); [left; exact B|right; apply NU; exact B].
    + intros q len l k H W. rewrite put_stream_at in H. destruct (ref_eqb r q) eqn:E; [discriminate|]. rewrite IO, E, AT, E. apply (GU q len l k H W).
    + intros q W N. apply GV; [exact W|]. rewrite AT in N. destruct (ref_eqb r q) eqn:E; [|exact N]. apply ref_eqb_iff in E. subst q. congruence.
    + intros q L. destruct (GA q L) as [A B]. split; [exact A|]. rewrite AT. destruct (ref_eqb r q); [discriminate|exact B].
    + intros q W. destruct (GW q W) as (len & l & k & X). exists len, l, k. rewrite put_stream_at. destruct (ref_eqb r q) eqn:E; [|exact X]. apply ref_eqb_iff in E. subst q. congruence.
    + intros q X. rewrite IO in X. apply andb_prop in X. rewrite put_stream_at. destruct (ref_eqb r q); [discriminate|]. exact (GT q (proj2 X)).
  - destruct (at_ref (objects d) l0) as [w0|] eqn:L0; [|discriminate]. apply pair_equal_spec in H. destruct H as [_ <-].
    destruct (GD r len0 l0 k0 S0) as (-> & LZ & LC & LS & n0 & LN).
    assert (RL : ref_eqb r l0 = false) by (apply ref_eqb_false; intros ->; congruence).
    assert (AL : forall q, at_ref (change obs l0 (ONum len0)) q = if ref_eqb l0 q then Some (ONum len0) else at_ref obs q).
    { intro q. rewrite at_change, AT, RL, L0. reflexivity. }
    assert (W0 : written d r). { destruct (written_dec d r) as [W|W]; [exact W|]. destruct (GU r len0 l0 false S0 W) as (_ & X & _). congruence. }
    split; unfold written, is_open in *; cbn [set_opened with_stream with_outputs with_objects objects streams table last outputs count] in *; try assumption.
    + intros q w H. rewrite AL, AT in H. destruct (ref_eqb l0 q) eqn:E2; [apply ref_eqb_iff in E2; subst q; exact (GO _ _ LN)|]. destruct (ref_eqb r q) eqn:E; [apply ref_eqb_iff in E; subst q|]; eapply GO; eassumption.
    + intros q len l k H. destruct (GD q len l k H) as (A & B & C & D & n & F). repeat split; try assumption. rewrite AL. destruct (ref_eqb l0 l); [eexists; reflexivity|exists n; apply NU; exact F].
    + intros q len l k H W. rewrite IO. destruct (GL q len l k H W) as [A B]. split; [exact A|]. destruct (ref_eqb r q) eqn:E; cbn [negb andb].
      * apply ref_eqb_iff in E. subst q. rewrite S0 in H. injection H as <- <- <-. right. rewrite AL, ref_eqb_refl. reflexivity.
      * destruct B as [B|B]; [left; exact B|right]. rewrite AL. destruct (ref_eqb l0 l) eqn:E2; [|apply NU; exact B]. apply ref_eqb_iff in E2. subst l. apply ref_eqb_false in E. destruct E. exact (GI _ _ _ _ _ _ _ S0 H).
    + intros q len l k H W. destruct (ref_eqb r q) eqn:E; [apply ref_eqb_iff in E; subst q; contradiction|]. rewrite IO, E, AL, AT, E.
      destruct (ref_eqb l0 q) eqn:E2; [apply ref_eqb_iff in E2; subst q; congruence|]. apply (GU q len l k H W).
    + intros q W N. apply GV; [exact W|]. rewrite AL, AT in N. destruct (ref_eqb l0 q) eqn:E2; [apply ref_eqb_iff in E2; subst q; congruence|]. destruct (ref_eqb r q) eqn:E; [|exact N]. apply ref_eqb_iff in E. subst q. congruence.
    + intros q L. destruct (GA q L) as [A B]. split; [exact A|]. rewrite AL, AT. destruct (ref_eqb l0 q); [discriminate|]. destruct (ref_eqb r q); [discriminate|exact B].
    + intros q X. rewrite IO in X. apply andb_prop in X. exact (GT q (proj2 X)).
Qed.
Lemma direct_dec d r : (exists len l, streams d r = Some (Direct len l false)) \/ (forall len l, streams d r <> Some (Direct len l false)).
Proof. destruct (streams d r) as [[x fs|len l [|]]|]; [right; discriminate|right; discriminate|left; eauto|right; discriminate]. Qed.
Lemma open_good o calls d d' r ts : (forall q, wflate o q = false) -> good calls d -> open_output o r ts d = (Ok tt, d') -> good (calls ++ [Open r ts]) d'.
Proof.
  intros F G H. destruct (direct_dec d r) as [(len0 & l0 & S0)|ND].
  - destruct (open_direct o r ts d d' len0 l0 F S0 H) as (v & t & V & W & IO & ->).
    pose proof (finish_good _ _ (opened_good _ _ G)) as G1. destruct (finish_same (set_opened d)) as (E1 & E2 & E3 & E4 & E5 & E6).
    set (d1 := finish_last (set_opened d)) in *. cbn [set_opened streams outputs table count] in *. rewrite <- E1 in S0. clear E1. unfold is_open in IO. rewrite <- E2 in IO.
    destruct G1 as [GO GS GD GI GL GU GV GA GW GT GP].
    assert (NW : ~ written d1 r). { intro X. assert (Y : last d1 = Some r) by (apply GV; [exact X|congruence]). congruence. }
    destruct (GU r _ _ _ S0 NW) as (Z0 & _ & e & VE & LE).
    assert (WR : forall q, (exists off, In (q, off) (table d1 ++ [(r, Z.of_nat (length (dev d1)))])) <-> written d1 q \/ q = r).
    { intro q. split.
      - intros [off X]. apply in_app_or in X. destruct X as [X|[[= -> _]|[]]]; [left; exists off; exact X|right; reflexivity].
      - intros [[off X]| ->]; [exists off; apply in_or_app; left; exact X|eexists; apply in_or_app; right; left; reflexivity]. }
    split; unfold written, is_open in *; cbn [objects streams table last outputs count existsb fst] in *; try assumption.
    + intros q len l k H1 X. rewrite content_snoc. cbn [given]. apply WR in X. destruct (ref_eqb r q) eqn:E; cbn [orb].
      * apply ref_eqb_iff in E. subst q. rewrite S0 in H1. injection H1 as <- <- <-. subst len0. split; [reflexivity|left; reflexivity].
      * destruct X as [X| ->]; [apply (GL q len l k H1 X)|]. rewrite ref_eqb_refl in E. discriminate.
    + intros q len l k H1 X. assert (X1 : ~ (exists off, In (q, off) (table d1))) by (intro Y; apply X; apply WR; left; exact Y). assert (X2 : q <> r) by (intro Y; apply X; apply WR; right; exact Y).
      destruct (ref_eqb r q) eqn:E; [apply ref_eqb_iff in E; congruence|]. cbn [orb]. apply (GU q len l k H1 X1).
    + intros q X N. apply WR in X. destruct X as [X| ->]; [|reflexivity]. pose proof (GV q X N). congruence.
    + intros q X. injection X as <-. split; [apply WR; right; reflexivity|congruence].
    + intros q X. apply WR in X. destruct X as [X| ->]; [exact (GW q X)|]. rewrite S0. eauto.
    + intros q X. destruct (ref_eqb r q) eqn:E; [apply ref_eqb_iff in E; subst q; congruence|]. exact (GT q X).
  - destruct (open_memory o r ts d d' ND H) as (x & fs & v & V & S0 & IO & ->). destruct G as [GO GS GD GI GL GU GV GA GW GT GP].
    split; unfold written, is_open in *; cbn [with_outputs with_stream objects streams table last outputs count existsb fst] in *; try assumption.
    + intros q s H1. rewrite put_stream_at in H1. destruct (ref_eqb r q) eqn:E; [apply ref_eqb_iff in E; subst q|]; eapply GS; eassumption.
    + intros q len l k H1. rewrite put_stream_at in H1. destruct (ref_eqb r q) eqn:E; [discriminate|]. destruct (GD q len l k H1) as (A & B & C & D & n & F1). repeat split; try assumption; [|exists n; exact F1].
      rewrite put_stream_at. destruct (ref_eqb r l) eqn:E2; [|exact D]. apply ref_eqb_iff in E2. subst l. congruence.
    + intros q q' len len' l k k' H1 H'. rewrite put_stream_at in H1, H'. destruct (ref_eqb r q); [discriminate|]. destruct (ref_eqb r q'); [discriminate|]. eapply GI; eassumption.
    + intros q len l k H1 W. rewrite put_stream_at in H1. rewrite content_snoc. cbn [given]. destruct (ref_eqb r q) eqn:E; [discriminate|]. cbn [orb]. apply (GL q len l k H1 W).
    + intros q len l k H1. rewrite put_stream_at in H1. destruct (ref_eqb r q) eqn:E; [discriminate|]. cbn [orb]. apply (GU q len l k H1).
    + intros q W. destruct (GW q W) as (len & l & k & X). exists len, l, k. rewrite put_stream_at. destruct (ref_eqb r q) eqn:E; [|exact X]. apply ref_eqb_iff in E. subst q. congruence.
    + intros q X. rewrite put_stream_at. destruct (ref_eqb r q) eqn:E; [discriminate|]. exact (GT q X).
Qed.
Lemma step_good o calls d d' x : (forall q, wflate o q = false) -> keeps_length x -> good calls d -> step o x d = (Ok tt, d') -> good (calls ++ [x]) d'.
Proof.
  intros F K G H. destruct x as [v|r|r k v|r ts|r b|r]; cbn [step] in H.
  - injection H as <-. exact (new_good calls d v G).
  - exact (stream_good calls d d' r G H).
  - exact (set_good calls d d' r k v K G H).
  - exact (open_good o calls d d' r ts F G H).
  - exact (put_good calls d d' r b G H).
  - exact (close_good calls d d' r G H).
Qed.
Lemma run_good o : (forall q, wflate o q = false) -> forall xs calls d d', Forall keeps_length xs -> good calls d -> run o xs d = (Ok tt, d') -> good (calls ++ xs) d'.
Proof.
  intro F. induction xs as [|x xs IH]; intros calls d d' K G H; cbn [run] in H.
  - injection H as <-. rewrite app_nil_r. exact G.
  - inversion K; subst. destruct (step o x d) as [[[]| | |] d1] eqn:S0; try discriminate. change (x :: xs) with ([x] ++ xs). rewrite app_assoc. eapply IH; [assumption| |exact H]. eapply step_good; eassumption.
Qed.
(** Putting an object into the file, and what follows *)
Lemma open_placed o calls d d' r ts e len l : (forall q, wflate o q = false) -> good calls d -> at_ref (objects d) r = Some (ODict e) -> streams d r = Some (Direct len l false) -> open_output o r ts d = (Ok tt, d') ->
  exists off, placed o (calls ++ [Open r ts]) d' r off e l /\ dict_get (bs "Length") e = Some (ORef (fst l) (snd l)).
Proof.
  intros F G A S0 H. destruct (open_direct o r ts d d' len l F S0 H) as (v & t & V & W & IO & ->).
  pose proof (finish_good _ _ (opened_good _ _ G)) as G1. destruct (finish_same (set_opened d)) as (E1 & E2 & E3 & E4 & E5 & E6).
  assert (VE : v = ODict e).
  { unfold finish_last in V. cbn [set_opened last] in V. destruct (last d); cbn [set_last with_objects objects] in V; [rewrite at_without in V; destruct (ref_eqb r0 r); [discriminate|]|]; cbn [set_opened with_dev objects] in V; congruence. }
  set (d1 := finish_last (set_opened d)) in *. cbn [set_opened streams outputs table count] in *. subst v.
  assert (NW : ~ written d1 r). { intro X. assert (Y : last d1 = Some r) by (apply (g_live _ _ G1); [exact X|congruence]). congruence. }
  assert (S1 : streams d1 r = Some (Direct len l false)) by congruence.
  destruct (g_unw _ _ G1 r _ _ _ S1 NW) as (Z0 & _ & e' & VE & LE). rewrite V in VE. injection VE as <-.
  exists (Z.of_nat (length (dev d1))). split; [|exact LE]. unfold placed. cbn [dev table streams last objects]. rewrite app_length. split; [lia|]. split; [apply in_or_app; right; left; reflexivity|]. split; [eauto|].
  eexists. split; [exists t; split; [exact W|reflexivity]|]. left. split; [reflexivity|]. rewrite Nat2Z.id, skipn_more, skipn_all by lia. rewrite content_snoc. cbn [given app]. rewrite ref_eqb_refl, app_nil_r. reflexivity.
Qed.
Lemma step_placed o calls d d' x r off e l : (forall q, wflate o q = false) -> good calls d -> placed o calls d r off e l -> step o x d = (Ok tt, d') -> placed o (calls ++ [x]) d' r off e l.
Proof.
  intros F G P H. pose proof P as (R & I & (len & k & S0) & h & V & Q). assert (WR : written d r) by (exists off; exact I).
  assert (AL : last d = Some r -> at_ref (objects d) r <> None) by (intro X; exact (proj2 (g_last _ _ G r X))).
  destruct x as [v|q|q j v|q ts|q b|q]; cbn [step] in H; unfold placed; rewrite content_snoc; cbn [given].
  - injection H as <-. cbn [new_object snd dev table streams last objects]. split; [exact R|]. split; [exact I|]. split; [eauto|]. exists h. split; [exact V|]. destruct Q as [Q|(Q0 & Q1 & Q2)]; [left; exact Q|right].
    split; [exact Q0|]. split; [|exact Q2]. rewrite at_app, Q1. cbn [at_ref]. destruct (ref_eqb (count d, 0) r) eqn:E; [|reflexivity]. apply ref_eqb_iff in E. subst r. destruct (g_str _ _ G _ _ S0) as [_ X]. cbn in X. lia.
  - unfold create_stream in H. destruct (at_ref (objects d) q) as [v|] eqn:A; [|discriminate]. destruct (streams d q) as [s|] eqn:S1.
    + injection H as <-. repeat split; try lia; try assumption; eauto.
    + assert (QR : ref_eqb q r = false) by (apply ref_eqb_false; intros ->; congruence). destruct v as [| | | | | | | |e0]; try discriminate. destruct (opened d); [injection H as <-|unfold new_object in H; injection H as <-];
      cbn [with_stream with_objects dev table streams last objects]; (split; [exact R|]); (split; [exact I|]); (split; [exists len, k; rewrite put_stream_at, QR; exact S0|]); exists h; (split; [exact V|]); [exact Q|].
      destruct Q as [Q|(Q0 & Q1 & Q2)]; [left; exact Q|right]. split; [exact Q0|]. split; [|exact Q2]. rewrite at_change, QR, at_app, Q1. cbn [at_ref]. destruct (ref_eqb (count d, 0) r) eqn:E; [|reflexivity]. apply ref_eqb_iff in E. subst r. destruct (g_str _ _ G _ _ S0) as [_ X]. cbn in X. lia.
  - unfold set_entry in H. destruct (at_ref (objects d) q) as [[| | | | | | | |e0]|] eqn:A; try discriminate. injection H as <-. cbn [with_objects dev table streams last objects].
    split; [exact R|]. split; [exact I|]. split; [eauto|]. exists h. split; [exact V|]. destruct Q as [Q|(Q0 & Q1 & Q2)]; [left; exact Q|right]. split; [exact Q0|]. split; [|exact Q2]. rewrite at_change, A. destruct (ref_eqb q r) eqn:E; [|exact Q1]. apply ref_eqb_iff in E. congruence.
  - destruct (ref_eqb q r) eqn:E.
    + exfalso. apply ref_eqb_iff in E. subst q. destruct (g_dir _ _ G r len l k S0) as (-> & _). destruct (open_direct o r ts d d' len l F S0 H) as (v & t & V0 & _).
      pose proof (finish_good _ _ (opened_good _ _ G)) as G1. destruct (finish_same (set_opened d)) as (E1 & E2 & E3 & E4 & _).
      assert (Y : last (finish_last (set_opened d)) = Some r). { apply (g_live _ _ G1); [|congruence]. unfold written. rewrite E4. exact WR. } congruence.
    + destruct (direct_dec d q) as [(len0 & l0 & S1)|ND].
      * destruct (open_direct o q ts d d' len0 l0 F S1 H) as (v & t & V0 & W & IO & ->).
        assert (P1 : placed o calls (set_opened d) r off e l) by exact P. apply finish_placed in P1. destruct (finish_same (set_opened d)) as (E1 & E2 & E3 & E4 & _).
        set (d1 := finish_last (set_opened d)) in *. destruct P1 as (R1 & I1 & (len1 & k1 & S2) & h1 & V1 & Q1). cbn [dev table streams last objects]. rewrite app_length.
        split; [lia|]. split; [apply in_or_app; left; exact I1|]. split; [eauto|]. exists h1. split; [exact V1|]. right. destruct Q1 as [[Q1 _]|(Q1 & Q2 & j & Q3)]; [congruence|].
        split; [intros [= X]; apply ref_eqb_false in E; congruence|]. split; [exact Q2|]. rewrite skipn_more by lia. rewrite Q3. eexists. rewrite <- !app_assoc. reflexivity.
      * destruct (open_memory o q ts d d' ND H) as (x & fs & v & V0 & S1 & IO & ->). cbn [with_outputs with_stream dev table streams last objects]. split; [exact R|]. split; [exact I|].
        split; [exists len, k; rewrite put_stream_at, E; exact S0|]. exists h. split; [exact V|exact Q].
  - unfold put_bytes in H. destruct (is_open d q) eqn:IO; [|discriminate]. destruct (at_ref (objects d) q) as [v|] eqn:A; [|discriminate].
    destruct (streams d q) as [[x fs|len0 l0 k0]|] eqn:S1; [| |discriminate]; apply pair_equal_spec in H; destruct H as [_ <-]; cbn [with_stream with_dev dev table streams last objects].
    + assert (E : ref_eqb q r = false) by (apply ref_eqb_false; intros ->; congruence). rewrite E. split; [exact R|]. split; [exact I|]. split; [exists len, k; rewrite put_stream_at, E; exact S0|]. exists h. split; [exact V|exact Q].
    + assert (W0 : written d q). { destruct (written_dec d q) as [W|W]; [exact W|]. destruct (g_unw _ _ G q len0 l0 k0 S1 W) as (_ & X & _). congruence. }
      assert (LQ : last d = Some q) by (apply (g_live _ _ G); [exact W0|congruence]).
      rewrite app_length. split; [lia|]. split; [exact I|]. rewrite put_stream_at. rewrite skipn_more by lia. destruct (ref_eqb q r) eqn:E.
      * apply ref_eqb_iff in E. subst q. rewrite S0 in S1. injection S1 as <- <- <-. split; [eauto|]. exists h. split; [exact V|]. left. split; [exact LQ|]. destruct Q as [[_ Q]|(Q0 & _)]; [|congruence]. rewrite Q, app_assoc. reflexivity.
      * split; [eauto|]. exists h. split; [exact V|]. right. apply ref_eqb_false in E. destruct Q as [[Q0 _]|(Q0 & Q1 & j & Q2)]; [congruence|]. split; [exact Q0|]. split; [exact Q1|]. rewrite Q2. eexists. rewrite <- !app_assoc. reflexivity.
  - unfold close_output in H. destruct (at_ref (outputs d) q) as [ts|]; [|discriminate]. destruct (at_ref (objects d) q) as [[| | | | | | | |e0]|] eqn:A; try discriminate.
    destruct (streams d q) as [[x fs|len0 l0 k0]|] eqn:S1; [| |discriminate].
    + apply pair_equal_spec in H. destruct H as [_ <-]. cbn [with_stream with_outputs with_objects dev table streams last objects].
      assert (E : ref_eqb q r = false) by (apply ref_eqb_false; intros ->; congruence). split; [exact R|]. split; [exact I|]. split; [exists len, k; rewrite put_stream_at, E; exact S0|]. exists h. split; [exact V|].
      rewrite at_change, E. exact Q.
    + destruct (at_ref (objects d) l0) as [w0|] eqn:L0; [|discriminate]. apply pair_equal_spec in H. destruct H as [_ <-]. cbn [set_opened with_outputs with_objects dev table streams last objects].
      split; [exact R|]. split; [exact I|]. split; [eauto|]. exists h. split; [exact V|]. destruct Q as [Q|(Q0 & Q1 & Q2)]; [left; exact Q|right]. split; [exact Q0|]. split; [|exact Q2].
      rewrite at_change. destruct (ref_eqb l0 r) eqn:E2; [apply ref_eqb_iff in E2; subst l0; congruence|]. rewrite at_change. destruct (ref_eqb q r) eqn:E; [apply ref_eqb_iff in E; subst q; congruence|exact Q1].
Qed.
Lemma run_placed o r off e l : (forall q, wflate o q = false) -> forall xs calls d d', Forall keeps_length xs -> good calls d -> placed o calls d r off e l -> run o xs d = (Ok tt, d') -> placed o (calls ++ xs) d' r off e l.
Proof.
  intro F. induction xs as [|x xs IH]; intros calls d d' K G P H; cbn [run] in H.
  - injection H as <-. rewrite app_nil_r. exact P.
  - inversion K; subst. destruct (step o x d) as [[[]| | |] d1] eqn:S0; try discriminate. change (x :: xs) with ([x] ++ xs). rewrite app_assoc. eapply IH; [assumption| | |exact H]; [eapply step_good|eapply step_placed]; eassumption.
Qed.

(** ** The end *)
Lemma write_all_grows z n o : forall l d r f, write_all z n o l d = (r, f) -> (exists b, dev f = dev d ++ b) /\ (exists t, table f = table d ++ t).
Proof.
  induction l as [|[q v] l IH]; intros d r f H; cbn [write_all] in H.
  - injection H as <- <-. split; [exists []|exists []]; rewrite app_nil_r; reflexivity.
  - destruct (one_text z n o d q v) as [b| | |].
    + destruct (IH _ _ _ H) as [[b1 B] [t T]]. cbn [add_entry with_dev dev table] in B, T. split; [exists (b ++ b1); rewrite B, app_assoc; reflexivity|exists ((q, Z.of_nat (length (dev d))) :: t); rewrite T, <- app_assoc; reflexivity].
    + injection H as <- <-. split; [exists []; cbn; rewrite app_nil_r; reflexivity|eexists; reflexivity].
    + injection H as <- <-. split; [exists []; cbn; rewrite app_nil_r; reflexivity|eexists; reflexivity].
    + injection H as <- <-. split; [exists []; cbn; rewrite app_nil_r; reflexivity|eexists; reflexivity].
Qed.
Lemma write_all_each z n o : forall l d f, write_all z n o l d = (Ok tt, f) -> forall r v, In (r, v) l ->
  exists off b k d1, 0 <= off /\ In (r, off) (table f) /\ objects d1 = objects d /\ streams d1 = streams d /\ one_text z n o d1 r v = Ok b /\ skipn (Z.to_nat off) (dev f) = b ++ k.
Proof.
  induction l as [|[q w] l IH]; intros d f H r v I; [contradiction|]. cbn [write_all] in H. destruct (one_text z n o d q w) as [b| | |] eqn:T; try discriminate.
  destruct I as [[= -> ->]|I].
  - destruct (write_all_grows _ _ _ _ _ _ _ H) as [[b1 B] [t TT]]. cbn [add_entry with_dev dev table] in B, TT. exists (Z.of_nat (length (dev d))), b, b1, d. split; [lia|].
    split; [rewrite TT; apply in_or_app; left; apply in_or_app; right; left; reflexivity|]. split; [reflexivity|]. split; [reflexivity|]. split; [exact T|].
    rewrite B, Nat2Z.id, <- app_assoc, skipn_more, skipn_all by lia. reflexivity.
  - destruct (IH _ _ H r v I) as (off & b' & k & d1 & A & B & C & D & E). exists off, b', k, d1. auto 10.
Qed.
Lemma finish_stands z n o calls d f r off e l : placed o calls d r off e l -> finish z n o d = (Err ENotImplemented, f) -> In (r, off) (table f) /\ stands o (dev f) off r e (content r calls).
Proof.
  intros P H. apply finish_placed in P. unfold finish in H. destruct (finish_same d) as (_ & _ & L & _). set (d1 := finish_last d) in *.
  destruct P as (R & I & _ & h & V & [[Q _]|(_ & _ & k & Q)]); [congruence|].
  destruct (write_all z n o (objects d1) d1) as [x f'] eqn:W. destruct (write_all_grows _ _ _ _ _ _ _ W) as [[b B] [t T]].
  assert (f' = f) by (destruct x; injection H; congruence). subst f'. split; [rewrite T; apply in_or_app; left; exact I|].
  split; [lia|]. exists h, (k ++ b). split; [exact V|]. rewrite B, skipn_more by lia. rewrite Q. rewrite <- !app_assoc. reflexivity.
Qed.
