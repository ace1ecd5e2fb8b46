(** Lemmas for the properties of annotations and file specifications. *)
From Coq Require Import String QArith Lqa.
From Verif Require Import Base ChainProofs TokModel DictProofs OwnModel OwnProofs ListModel PageModel PageProofs RectModel LinkSpec LinkModel LinkProofs AnnotSpec AnnotModel AnnotProofs.
Local Open Scope Z_scope.

(** ** The list of appearances *)
Lemma in_get (d : list (list Z * obj)) k v : DictProofs.sorted d -> (List.In (k, v) d <-> dict_get k d = Some v).
Proof.
  intro SD. split.
  - induction SD as [|[k' v'] d SD IH F]; [intros []|]. intros [E|I]; cbn [dict_get].
    + injection E as -> ->. rewrite beq_refl. reflexivity.
    + destruct (beq k k') eqn:B; [|apply IH, I]. apply beq_eq in B. subst k'. rewrite Forall_forall in F. specialize (F _ I).
      unfold klt in F. cbn [fst] in F. rewrite bytes_lt_irrefl in F. discriminate F.
  - clear SD. induction d as [|[k' v'] d IH]; cbn [dict_get]; [discriminate|]. destruct (beq k k') eqn:B.
    + apply beq_eq in B. subst. intro E. injection E as ->. left. reflexivity.
    + intro E. right. apply IH, E.
Qed.
Section Listing.
Variable h : heap.
Variable st : ref -> bool.
Hypothesis ST : forall y, st y = true -> h y <> None.
Lemma follow_stream l v m : follow h l v = m -> (forall q, l <> At q) -> (has_stream st m = true <-> exists y, v = to_ref y /\ m = At y /\ st y = true).
Proof.
  intros E N. subst m. split.
  - intro H. destruct v; cbn [follow] in *; try (destruct l; [exfalso; eapply N; reflexivity|discriminate H]).
    destruct (h (n, g)) eqn:HY; [|destruct l; [exfalso; eapply N; reflexivity|discriminate H]]. exists (n, g). auto.
  - intros (y & -> & E & Y). rewrite E. exact Y.
Qed.
Lemma follow_ref l y : st y = true -> follow h l (to_ref y) = At y.
Proof. intro Y. destruct y as [n g]. cbn [follow to_ref fst snd]. destruct (h (n, g)) eqn:E; [reflexivity|]. exfalso. eapply ST; eassumption. Qed.
Lemma in_states a inn sd m b s : List.In (m, b, s) (states h st a inn sd) <-> b = a /\ exists y, m = At y /\ st y = true /\ List.In (s, to_ref y) sd.
Proof.
  induction sd as [|[s' v] sd IH]; cbn [states List.In].
  - split; [intros []|intros (_ & y & _ & _ & [])].
  - pose proof (follow_stream (LinkModel.In inn s') v _ eq_refl ltac:(discriminate)) as FS.
    destruct (has_stream st (follow h (LinkModel.In inn s') v)) eqn:HS; cbn [List.In]; rewrite IH.
    + destruct (proj1 FS eq_refl) as (y & Y1 & Y2 & Y3). split.
      * intros [E|(-> & z & Z1 & Z2 & Z3)].
        -- injection E as <- <- <-. split; [reflexivity|]. exists y. split; [exact Y2|]. split; [exact Y3|]. left. congruence.
        -- split; [reflexivity|]. exists z. split; [exact Z1|]. split; [exact Z2|]. right. exact Z3.
      * intros (-> & z & Z1 & Z2 & [E|I]).
        -- injection E as -> ->. left. rewrite Z1, follow_ref by exact Z2. reflexivity.
        -- right. split; [reflexivity|]. exists z. auto.
    + split.
      * intros (-> & z & Z1 & Z2 & Z3). split; [reflexivity|]. exists z. split; [exact Z1|]. split; [exact Z2|]. right. exact Z3.
      * intros (-> & z & Z1 & Z2 & [E|I]); [|split; [reflexivity|exists z; auto]].
        injection E as -> ->. exfalso. rewrite follow_ref in HS by exact Z2. cbn [has_stream] in HS. congruence.
Qed.
(** What one kind of appearance contributes *)
Definition part (apl : loc) (a : ap) (v : obj) : list (loc * ap * list Z) :=
  let l := follow h (LinkModel.In apl (ap_name a)) v in
  if has_stream st l then [(l, a, [])] else match read h l with Some (ODict s) => states h st a l s | _ => [] end.
Lemma in_appearances apl m a s d : List.In (m, a, s) (appearances h st apl d) <-> exists v, List.In (ap_name a, v) d /\ List.In (m, a, s) (part apl a v).
Proof.
  assert (PK : forall apl b v, List.In (m, a, s) (part apl b v) -> b = a).
  { intros p b v. unfold part. destruct (has_stream _ _); [intros [E|[]]; congruence|]. destruct (read h _) as [[]|]; try (intros []).
    intro I. apply in_states in I. destruct I as (-> & _). reflexivity. }
  induction d as [|[k v] d IH]; cbn [appearances List.In].
  - split; [intros []|intros (v & [] & _)].
  - rewrite in_app_iff, IH. clear IH. split.
    + intros [H|(w & W1 & W2)]; [|exists w; auto].
      destruct (beq k (bs "R")) eqn:K1; [apply beq_eq in K1; subst k; fold (part apl Rollover v) in H; pose proof (PK _ _ _ H); subst a; exists v; auto|].
      destruct (beq k (bs "D")) eqn:K2; [apply beq_eq in K2; subst k; fold (part apl Down v) in H; pose proof (PK _ _ _ H); subst a; exists v; auto|].
      destruct (beq k (bs "N")) eqn:K3; [apply beq_eq in K3; subst k; fold (part apl Normal v) in H; pose proof (PK _ _ _ H); subst a; exists v; auto|]. destruct H.
    + intros (w & [E|I] & W2); [|right; exists w; auto]. left. injection E as -> ->. destruct a; exact W2.
Qed.
End Listing.
Lemma listed h st r d ad : (forall y, st y = true -> h y <> None) -> h r = Some (ODict d) -> entry_is h d (bs "AP") (ODict ad) -> DictProofs.sorted ad ->
  (forall b sd, entry_is h ad (ap_name b) (ODict sd) -> DictProofs.sorted sd /\ absent sd []) ->
  exists l, get_appearances h st r = Ok l /\ forall m a s, List.In (m, a, s) l <->
    exists y, m = At y /\ st y = true /\ appearance h r (ap_name a) s y /\
      (s <> [] -> forall z, dict_get (ap_name a) ad = Some (to_ref z) -> st z = false).
Proof.
  intros ST R E SA SI. unfold get_appearances, ap_dict, dict_at. rewrite R. cbn [bind]. destruct (find_at h (At r) _ _ _ R E) as (apl & -> & RA). rewrite RA. cbn [bind].
  unfold dict_of. rewrite RA. cbn [bind]. eexists. split; [reflexivity|]. intros m a s. rewrite in_appearances by exact ST.
  assert (AI : forall y, appearance h r (ap_name a) s y <-> app_in h ad (ap_name a) s y).
  { intro y. split.
    - intros (d' & ad' & R' & E' & A). assert (d' = d) by congruence. subst d'. assert (X : ODict ad' = ODict ad) by (eapply entry_fun; eassumption). injection X as ->. exact A.
    - intro A. exists d, ad. auto. }
  split.
  - intros (v & V & P). apply in_get in V; [|exact SA]. unfold part in P.
    destruct (has_stream st (follow h (LinkModel.In apl (ap_name a)) v)) eqn:HS.
    + destruct P as [P|[]]. injection P as <- <-.
      apply (follow_stream h st (LinkModel.In apl (ap_name a)) v _ eq_refl ltac:(discriminate)) in HS. destruct HS as (y & -> & Y2 & Y3).
      exists y. split; [exact Y2|]. split; [exact Y3|]. split; [|congruence]. apply AI. left. auto.
    + destruct (read h (follow h (LinkModel.In apl (ap_name a)) v)) as [[| | | | | | | |sd]|] eqn:RS; try (destruct P; fail).
      apply in_states in P; [|exact ST]. destruct P as (_ & y & -> & Y & I).
      assert (EN : entry_is h ad (ap_name a) (ODict sd)).
      { exists v. split; [exact V|]. destruct v; cbn [follow] in RS; rewrite ?(read_in _ _ _ _ RA), ?V in RS; try discriminate RS.
        - destruct (h (n, g)) as [w|] eqn:HN.
          + cbn [read] in RS. constructor. congruence.
          + rewrite (read_in _ _ _ _ RA), V in RS. discriminate RS.
        - injection RS as ->. constructor. discriminate. }
      destruct (SI _ _ EN) as (SS & SE). apply in_get in I; [|exact SS]. exists y. split; [reflexivity|]. split; [exact Y|]. split.
      * apply AI. right. split; [|exists sd; auto]. intros ->. unfold absent in SE. congruence.
      * intros _ z Z. rewrite V in Z. injection Z as ->. destruct (st z) eqn:SZ; [|reflexivity]. rewrite (follow_ref h st ST) in HS by exact SZ. cbn [has_stream] in HS. congruence.
  - intros (y & -> & Y & A & NZ). apply AI in A. destruct A as [(-> & G)|(N & sd & EN & G)].
    + exists (to_ref y). split; [apply in_get; assumption|]. unfold part. rewrite (follow_ref h st ST) by exact Y. cbn [has_stream]. rewrite Y. left. reflexivity.
    + destruct EN as (v & V & VI). exists v. split; [apply in_get; assumption|]. unfold part.
      destruct (has_stream st (follow h (LinkModel.In apl (ap_name a)) v)) eqn:HS.
      * apply (follow_stream h st (LinkModel.In apl (ap_name a)) v _ eq_refl ltac:(discriminate)) in HS. destruct HS as (z & -> & _ & Z).
        specialize (NZ N z V). congruence.
      * assert (RS : read h (follow h (LinkModel.In apl (ap_name a)) v) = Some (ODict sd)).
        { inversion VI; subst.
          - cbn [follow]. rewrite (read_in _ _ _ _ RA). exact V.
          - cbn [follow]. rewrite H. cbn [read]. exact H. }
        rewrite RS. apply in_states; [exact ST|]. split; [reflexivity|]. exists y. split; [reflexivity|]. split; [exact Y|].
        apply in_get; [|exact G]. apply (SI a sd). exists v. auto.
Qed.

(** ** Entries *)
Lemma find_key_own fuel h d k v o : entry_is h d k o -> find_key_parent (S fuel) h k d = Ok v -> v = Some o.
Proof.
  intros (e & G & V). cbn [find_key_parent]. unfold dict_find, get_key. rewrite G. inversion V; subst.
  - destruct o; intro E; try (apply ok_inj in E; congruence). exfalso. eapply H. reflexivity.
  - rewrite H. intro E. apply ok_inj in E. congruence.
Qed.
Lemma find_key_is fuel h d k o : entry_is h d k o -> find_key_parent (S fuel) h k d = Ok (Some o).
Proof.
  intros (e & G & V). cbn [find_key_parent]. unfold dict_find, get_key. rewrite G. inversion V; subst.
  - destruct o; try reflexivity. exfalso. eapply H. reflexivity.
  - rewrite H. reflexivity.
Qed.
Lemma find_key_no fuel h d k : absent d k -> absent d (bs "Parent") -> find_key_parent (S fuel) h k d = Ok None.
Proof. intros A P. cbn [find_key_parent]. unfold dict_find, get_key. rewrite A, P. reflexivity. Qed.
Lemma key_set h r d k v : h r = Some (ODict d) -> exists h', set_key h r k v = Ok h' /\ h' r = Some (ODict (add_key k v d)) /\ only_at r h h' /\
  only [k] d (add_key k v d).
Proof.
  intro R. unfold set_key, dict_at. rewrite R. cbn [bind]. eexists. split; [reflexivity|]. split; [apply set_same|]. split; [intros q N; apply set_other, N|].
  apply only_add. left. reflexivity.
Qed.
Lemma entry_add h d k v : (forall n g, v <> ORef n g) -> entry_is h (add_key k v d) k v.
Proof. intro N. exists v. split; [apply get_add_same|constructor; exact N]. Qed.
Lemma flags_read fuel h r d z : h r = Some (ODict d) -> flags_are h d z -> (absent d (bs "F") -> absent d (bs "Parent")) -> get_flags (S fuel) h r = Ok z.
Proof.
  intros R FA NP. unfold get_flags, dict_at. rewrite R. cbn [bind]. destruct FA as [A|z E B].
  - rewrite find_key_no by auto. reflexivity.
  - rewrite (find_key_is _ _ _ _ _ E). cbn [bind]. unfold u32. rewrite Z.mod_small by exact B. reflexivity.
Qed.
Lemma flags_set h r d z : h r = Some (ODict d) -> 0 <= z < 2 ^ 32 -> exists h' d', set_flags h r z = Ok h' /\ h' r = Some (ODict d') /\ flags_are h' d' z /\
  only [bs "F"] d d' /\ only_at r h h' /\ forall fuel, get_flags (S fuel) h' r = Ok z.
Proof.
  intros R B. destruct (key_set h r d (bs "F") (ONum z) R) as (h' & E & R' & O & K). exists h', (add_key (bs "F") (ONum z) d).
  assert (FA : flags_are h' (add_key (bs "F") (ONum z) d) z) by (apply FSome; [apply entry_add; discriminate|exact B]).
  split; [exact E|]. split; [exact R'|]. split; [exact FA|]. split; [exact K|]. split; [exact O|]. intro fuel. eapply flags_read; [exact R'|exact FA|].
  intro A. unfold absent, add_key in A. rewrite get_add_same in A. discriminate A.
Qed.
Lemma text_read fuel h r d k s : h r = Some (ODict d) -> text_is h d k s -> (absent d k -> absent d (bs "Parent")) -> get_string (S fuel) h r k = Ok s.
Proof.
  intros R T NP. unfold get_string, dict_at. rewrite R. cbn [bind]. destruct T as [A|x s E].
  - rewrite find_key_no by auto. reflexivity.
  - rewrite (find_key_is _ _ _ _ _ E). reflexivity.
Qed.
Lemma text_set h r d k s : h r = Some (ODict d) -> DictProofs.sorted d -> k <> bs "Parent" -> exists h' d', set_string h r k s = Ok h' /\ h' r = Some (ODict d') /\ text_is h' d' k s /\
  only [k] d d' /\ only_at r h h' /\ DictProofs.sorted d'.
Proof.
  intros R SD NK. destruct s as [s|]; cbn [set_string].
  - destruct (key_set h r d k (OStr false s) R) as (h' & E & R' & O & K). exists h', (add_key k (OStr false s) d). split; [exact E|]. split; [exact R'|].
    split; [eapply TSome, entry_add; discriminate|]. split; [exact K|]. split; [exact O|]. apply dict_add_sorted, SD.
  - unfold drop_key, dict_at. rewrite R. cbn [bind]. eexists _, _. split; [reflexivity|]. split; [apply set_same|]. unfold remove_key, has_key.
    destruct (dict_get k d) eqn:G; cbn [snd].
    + split; [apply TNone; unfold absent; rewrite erase_get by exact SD; rewrite beq_refl; reflexivity|].
      split; [|split; [intros q N; apply set_other, N|apply erase_sorted, SD]].
      intros j N. rewrite erase_get by exact SD. destruct (beq j k) eqn:B; [|reflexivity]. apply beq_eq in B. subst. exfalso. apply N. left. reflexivity.
    + split; [apply TNone; exact G|]. split; [apply only_refl|]. split; [intros q N; apply set_other, N|exact SD].
Qed.
(** ** Rectangles *)
Lemma ltb_spec a b : (ltb a b = true <-> (a < b)%Q) /\ (ltb a b = false <-> (b <= a)%Q).
Proof.
  unfold ltb. destruct (Qle_bool b a) eqn:E; cbn [negb].
  - apply Qle_bool_iff in E. split; split; intro H; try discriminate; try exact E; try reflexivity. exfalso. lra.
  - assert (N : ~ (b <= a)%Q) by (intro H; apply Qle_bool_iff in H; congruence). split; split; intro H; try discriminate; try reflexivity; try lra; contradiction.
Qed.
Lemma corners x1 y1 x2 y2 : let q := from_corners x1 y1 x2 y2 in ends x1 x2 (rl q) (rl q + rw q)%Q /\ ends y1 y2 (rb q) (rb q + rh q)%Q.
Proof.
  unfold from_corners, normalize. destruct (ltb x2 x1) eqn:X, (ltb y2 y1) eqn:Y; cbn [rl rb rw rh];
  repeat match goal with
  | [ H : ltb _ _ = true |- _ ] => apply ltb_spec in H
  | [ H : ltb _ _ = false |- _ ] => apply ltb_spec in H end;
  unfold ends; split; (split; [|lra]); ((left; split; lra) || (right; split; lra)).
Qed.
Lemma dq_val a : dq a = val a. Proof. reflexivity. Qed.
Lemma rect_got h r d l a b c e : h r = Some (ODict d) -> entry_is h d (bs "Rect") (OArr l) -> rectangle l a b c e ->
  exists q, annot_rect h r = Ok q /\ ends a c (rl q) (rl q + rw q)%Q /\ ends b e (rb q) (rb q + rh q)%Q.
Proof.
  intros R (v & G & V) RC. unfold annot_rect, dict_at. rewrite R. cbn [bind]. unfold has_key. rewrite G.
  assert (DF : dict_find h (bs "Rect") d = Some (OArr l)) by (unfold dict_find, get_key; rewrite G; inversion V; subst; auto).
  rewrite DF. destruct RC as [oa ob oc od a b c e NA NB NC ND]. cbn [length Nat.eqb reals].
  destruct (get_real_is _ _ NA) as (da & -> & QA). destruct (get_real_is _ _ NB) as (db' & -> & QB). destruct (get_real_is _ _ NC) as (dc & -> & QC).
  destruct (get_real_is _ _ ND) as (dd & -> & QD). cbn [bind from_array]. eexists. split; [reflexivity|].
  destruct (corners (dq da) (dq db') (dq dc) (dq dd)) as (C1 & C2). set (q := from_corners _ _ _ _) in *. clearbody q.
  rewrite <- dq_val in *. unfold ends in *. split; (split; [|lra]).
  - destruct C1 as ([(E1 & E2)|(E1 & E2)] & _); [left|right]; split; lra.
  - destruct C2 as ([(E1 & E2)|(E1 & E2)] & _); [left|right]; split; lra.
Qed.
Lemma rect_array_is q : rectangle (rect_array q) (val (dl q)) (val (db q)) (val (dl q) + val (dw q))%Q (val (db q) + val (dh q))%Q.
Proof. constructor; try apply real_is; apply real_is_eq; rewrite val_add; ring. Qed.
Lemma rect_set h r d q : h r = Some (ODict d) -> exists h' d', set_rect h r q = Ok h' /\ h' r = Some (ODict d') /\ entry_is h' d' (bs "Rect") (OArr (rect_array q)) /\
  only [bs "Rect"] d d' /\ only_at r h h'.
Proof.
  intro R. destruct (key_set h r d (bs "Rect") (OArr (rect_array q)) R) as (h' & E & R' & O & K). exists h', (add_key (bs "Rect") (OArr (rect_array q)) d).
  split; [exact E|]. split; [exact R'|]. split; [apply entry_add; discriminate|]. auto.
Qed.

(** ** File specifications *)
Lemma last_part_base path : forall cur pre, (exists dir, pre ++ path = dir ++ cur /\ (dir = [] \/ exists e, dir = e ++ [47])) ->
  (forall a b, cur = a ++ b -> b = path -> ~ List.In 47 a) -> (exists a, cur = a ++ path) -> base_name (pre ++ path) (last_part path cur).
Proof.
  induction path as [|c path IH]; intros cur pre D N X; cbn [last_part].
  - destruct D as (dir & D). split; [|exists dir; exact D]. destruct X as (a & X). rewrite app_nil_r in X. subst a. apply (N cur []); [rewrite app_nil_r; reflexivity|reflexivity].
  - destruct (Z.eqb_spec c 47) as [->|NC].
    + replace (pre ++ 47 :: path) with ((pre ++ [47]) ++ path) by (rewrite <- app_assoc; reflexivity). apply IH.
      * exists (pre ++ [47]). split; [reflexivity|]. right. exists pre. reflexivity.
      * intros a b E1 E2. subst b. assert (L : length path = length (a ++ path)) by (rewrite <- E1; reflexivity). rewrite app_length in L.
        destruct a as [|z a]; [intros []|cbn [length] in L; lia].
      * exists []. reflexivity.
    + replace (pre ++ c :: path) with ((pre ++ [c]) ++ path) by (rewrite <- app_assoc; reflexivity). apply IH.
      * destruct D as (dir & D1 & D2). exists dir. rewrite <- app_assoc. split; [exact D1|exact D2].
      * destruct X as (a & X). intros a' b' E1 ->. rewrite E1 in X. assert (a' = a ++ [c]).
        { replace (a ++ c :: path) with ((a ++ [c]) ++ path) in X by (rewrite <- app_assoc; reflexivity). apply app_inv_tail in X. exact X. }
        subst a'. rewrite in_app_iff. intros [H|[H|[]]]; [|congruence]. revert H. apply (N a (c :: path)); [|reflexivity]. rewrite E1, <- app_assoc. reflexivity.
      * destruct X as (a & ->). exists (a ++ [c]). rewrite <- app_assoc. reflexivity.
Qed.
Lemma strip_base path : base_name path (strip_path path true).
Proof.
  apply (last_part_base path path []).
  - exists []. split; [reflexivity|]. left. reflexivity.
  - intros a b E ->. assert (L : length path = length (a ++ path)) by (rewrite <- E; reflexivity). rewrite app_length in L. destruct a; [intros []|cbn [length] in L; lia].
  - exists []. reflexivity.
Qed.
Lemma letter_digit_iff c : letter_digit c = true <-> plain c.
Proof. unfold letter_digit, plain. rewrite !orb_true_iff, !andb_true_iff, !Z.leb_le, Z.eqb_eq. tauto. Qed.
Lemma file_text_plain name : Forall plain name -> file_text name = Ok name.
Proof.
  induction 1 as [|c name P _ IH]; cbn [file_text]; [reflexivity|].
  assert (E : (c =? 58) || (c =? 92) = false). { apply orb_false_iff. rewrite !Z.eqb_neq. unfold plain in P. lia. }
  rewrite E. rewrite (proj2 (letter_digit_iff c) P), IH. reflexivity.
Qed.
Lemma file_text_other name : Exists (fun c => ~ plain c /\ ~ separator c) name -> file_text name = UB.
Proof.
  induction 1 as [c name (P & Q)|c name _ IH]; cbn [file_text].
  - unfold separator in Q. assert (E : (c =? 58) || (c =? 92) = false) by (apply orb_false_iff; rewrite !Z.eqb_neq; lia). rewrite E.
    destruct (letter_digit c) eqn:L; [apply letter_digit_iff in L; contradiction|]. destruct (Z.eqb_spec c 47); [lia|reflexivity].
  - destruct (letter_digit _); [rewrite IH; reflexivity|]. destruct (_ =? 47); [rewrite IH; reflexivity|reflexivity].
Qed.
Lemma path_no_escape name l : path_parts name l -> Forall (fun c => plain c \/ c = 47) name -> forall n, List.In n l -> ~ List.In 92 n.
Proof.
  induction 1 as [|s l P IH|c s n l N P IH]; intros F m I.
  - destruct I as [<-|[]]. intros [].
  - inversion F; subst. destruct I as [<-|I]; [intros []|]. apply IH; assumption.
  - inversion F as [|? ? PC F']; subst. destruct I as [<-|I].
    + intros [H|H]; [unfold plain in PC; lia|]. revert H. apply IH; [exact F'|left; reflexivity].
    + apply IH; [exact F'|right; exact I].
Qed.
Lemma text_escape name : Forall (fun c => plain c \/ c = 47) name -> List.In 47 name -> exists t, file_text name = Ok t /\
  forall l, parts t l -> exists n, List.In n l /\ List.In 92 n.
Proof.
  intros F I. assert (OKT : forall nm, Forall (fun c => plain c \/ c = 47) nm -> exists t, file_text nm = Ok t).
  { induction 1 as [|c nm P _ (t & IH)]; [eexists; reflexivity|]. cbn [file_text].
    assert (E : (c =? 58) || (c =? 92) = false) by (apply orb_false_iff; rewrite !Z.eqb_neq; unfold plain in P; lia). rewrite E, IH.
    destruct P as [P| ->]; [rewrite (proj2 (letter_digit_iff c) P)|]; eexists; reflexivity. }
  induction F as [|c name P F IH]; [destruct I|]. cbn [file_text].
  assert (E : (c =? 58) || (c =? 92) = false) by (apply orb_false_iff; rewrite !Z.eqb_neq; unfold plain in P; lia). rewrite E.
  destruct P as [P| ->].
  - rewrite (proj2 (letter_digit_iff c) P). destruct I as [->|I]; [unfold plain in P; lia|]. destruct (IH I) as (t & -> & H). cbn [bind].
    eexists. split; [reflexivity|]. intros l PL. inversion PL; subst.
    + unfold plain in P. lia.
    + unfold plain in P. lia.
    + match goal with [ X : parts t _ |- _ ] => destruct (H _ X) as (m & [<-|M] & J) end; [eexists; split; [left; reflexivity|right; exact J]|exists m; split; [right; exact M|exact J]].
  - change (letter_digit 47) with false. cbn [Z.eqb Pos.eqb]. destruct (OKT _ F) as (t & ->). cbn [bind]. eexists. split; [reflexivity|].
    intros l PL. inversion PL; subst; [|congruence]. eexists. split; [left; reflexivity|left; reflexivity].
Qed.
Lemma base_unique path b b' : base_name path b -> base_name path b' -> b = b'.
Proof.
  assert (G : forall b b' dir dir', dir ++ b = dir' ++ b' -> ~ List.In 47 b' -> (dir = [] \/ exists e, dir = e ++ [47]) -> (length b <= length b')%nat ->
    (dir' = [] \/ exists e, dir' = e ++ [47]) -> ~ List.In 47 b -> b = b').
  { clear. intros b b' dir dir' E N' D L D' N. apply app_eq_app in E. destruct E as (l & [(E1 & E2)|(E1 & E2)]).
    - destruct (rev l) as [|c l'] eqn:RL.
      + assert (l = []) by (rewrite <- (rev_involutive l), RL; reflexivity). subst l. rewrite E2. reflexivity.
      + assert (LL : l = rev l' ++ [c]) by (rewrite <- (rev_involutive l), RL; reflexivity). exfalso.
        destruct D as [->|(e & ->)]; [destruct dir'; [|discriminate E1]; destruct l; [discriminate RL|discriminate E1]|].
        rewrite LL, app_assoc in E1. apply app_inj_tail in E1. destruct E1 as (_ & <-). apply N'. rewrite E2, LL, !in_app_iff. left. right. left. reflexivity.
    - destruct l as [|c l]; [rewrite E2; reflexivity|]. rewrite E2 in L. cbn [length app] in L. rewrite app_length in L. lia. }
  intros (N & dir & E & D) (N' & dir' & E' & D'). destruct (Nat.le_ge_cases (length b) (length b')) as [L|L].
  - eapply G with (dir := dir) (dir' := dir'); auto. congruence.
  - symmetry. eapply G with (dir := dir') (dir' := dir); auto. congruence.
Qed.
Lemma made_file path data (stripped : bool) x : (if stripped then exists b, base_name path b /\ Forall plain b else Forall plain path) ->
  exists d e b, new_file path data stripped x = Ok (ODict d, ODict e, data) /\ base_name path b /\
    dict_get (bs "Type") d = Some (OName (bs "Filespec")) /\
    (exists f, dict_get (bs "EF") d = Some (ODict f) /\ dict_get (bs "F") f = Some (ORef (fst x) (snd x))) /\
    dict_get (bs "Type") e = Some (OName (bs "EmbeddedFile")) /\
    (exists q, dict_get (bs "Params") e = Some (ODict q) /\ dict_get (bs "Size") q = Some (ONum (Z.of_nat (length data)))) /\
    forall h r, h r = Some (ODict d) -> file_name h r true = Ok b /\ file_name h r false = Ok (if stripped then b else path).
Proof.
  intro P. unfold new_file. assert (FT : file_text (strip_path path stripped) = Ok (strip_path path stripped)).
  { apply file_text_plain. destruct stripped; [|exact P]. destruct P as (b & B & F). rewrite <- (base_unique _ _ _ B (strip_base path)). exact F. }
  rewrite FT. cbn [bind]. eexists _, _, (strip_path path true). split; [reflexivity|]. split; [apply strip_base|]. split; [reflexivity|].
  split; [eexists; split; reflexivity|]. split; [reflexivity|]. split; [eexists; split; reflexivity|]. intros h r R. unfold file_name, dict_at. rewrite R. cbn [bind].
  split; [reflexivity|]. destruct stripped; reflexivity.
Qed.
Lemma path_wrong path data x : Forall (fun c => plain c \/ c = 47) path -> List.In 47 path ->
  exists d e t, new_file path data false x = Ok (ODict d, e, data) /\ dict_get (bs "F") d = Some (OStr false t) /\
    forall l, parts t l -> ~ path_parts path l.
Proof.
  intros F I. destruct (text_escape path F I) as (t & E & H). unfold new_file. cbn [strip_path]. rewrite E. cbn [bind]. eexists _, _, t. split; [reflexivity|]. split; [reflexivity|].
  intros l P Q. destruct (H _ P) as (n & N1 & N2). revert N2. eapply path_no_escape; eassumption.
Qed.
Lemma made_annot page name q : exists d, new_annot page name q = ODict d /\ DictProofs.sorted d /\
  dict_get (bs "Type") d = Some (OName (bs "Annot")) /\ dict_get (bs "Subtype") d = Some (OName name) /\
  dict_get (bs "P") d = Some (ORef (fst page) (snd page)) /\ absent d (bs "Parent") /\ absent d (bs "AP") /\
  (forall h, flags_are h d 4) /\
  exists l, dict_get (bs "Rect") d = Some (OArr l) /\ rectangle l (val (dl q)) (val (db q)) (val (dl q) + val (dw q))%Q (val (db q) + val (dh q))%Q.
Proof.
  eexists. split; [reflexivity|]. split; [repeat apply dict_add_sorted; constructor|]. split; [reflexivity|]. split; [reflexivity|]. split; [reflexivity|].
  split; [reflexivity|]. split; [reflexivity|]. split.
  - intro h. apply FSome; [|lia]. eexists. split; [reflexivity|]. constructor. discriminate.
  - exists (rect_array q). split; [reflexivity|apply rect_array_is].
Qed.
Lemma rect_kept h r d q : h r = Some (ODict d) -> exists h' d' l, set_rect h r q = Ok h' /\ h' r = Some (ODict d') /\
  entry_is h' d' (bs "Rect") (OArr l) /\ rectangle l (val (dl q)) (val (db q)) (val (dl q) + val (dw q))%Q (val (db q) + val (dh q))%Q /\
  only [bs "Rect"] d d' /\ only_at r h h' /\
  ((0 <= val (dw q))%Q -> (0 <= val (dh q))%Q -> exists q', annot_rect h' r = Ok q' /\
    (rl q' == val (dl q) /\ rb q' == val (db q) /\ rw q' == val (dw q) /\ rh q' == val (dh q))%Q).
Proof.
  intro R. destruct (rect_set h r d q R) as (h' & d' & E & R' & EN & O & K). exists h', d', (rect_array q). split; [exact E|]. split; [exact R'|]. split; [exact EN|].
  split; [apply rect_array_is|]. split; [exact O|]. split; [exact K|]. intros W H. destruct (rect_got _ _ _ _ _ _ _ _ R' EN (rect_array_is q)) as (q' & Q1 & Q2 & Q3).
  exists q'. split; [exact Q1|]. unfold ends in Q2, Q3. destruct Q2 as ([(A & B)|(A & B)] & C), Q3 as ([(A' & B')|(A' & B')] & C'); repeat split; lra.
Qed.
Lemma border_set h r d x y w dash : h r = Some (ODict d) -> exists h' d' l, set_border h r x y w dash = Ok h' /\ h' r = Some (ODict d') /\
  entry_is h' d' (bs "Border") (OArr l) /\ only [bs "Border"] d d' /\ only_at r h h' /\
  exists a b c, number_is a (val x) /\ number_is b (val y) /\ number_is c (val w) /\ (l = [a; b; c] /\ dash = [] \/ l = [a; b; c; OArr dash] /\ dash <> []).
Proof.
  intro R. unfold set_border. set (l := [real x; real y; real w] ++ _). destruct (key_set h r d (bs "Border") (OArr l) R) as (h' & E & R' & O & K).
  exists h', (add_key (bs "Border") (OArr l) d), l. split; [exact E|]. split; [exact R'|]. split; [apply entry_add; discriminate|]. split; [exact K|]. split; [exact O|].
  exists (real x), (real y), (real w). split; [apply real_is|]. split; [apply real_is|]. split; [apply real_is|]. subst l.
  destruct dash; [left; auto|right; split; [reflexivity|discriminate]].
Qed.
Lemma open_set h r d b : h r = Some (ODict d) -> DictProofs.sorted d -> exists h' d', set_open h r b = Ok h' /\ h' r = Some (ODict d') /\
  only [bs "Open"] d d' /\ only_at r h h' /\ dict_get (bs "Open") d' = match b with Some b => Some (OBool b) | None => None end /\
  get_open h' r = Ok (match b with Some b => b | None => false end).
Proof.
  intros R SD. assert (GO : forall h' d', h' r = Some (ODict d') -> dict_get (bs "Open") d' = match b with Some b => Some (OBool b) | None => None end ->
    get_open h' r = Ok (match b with Some b => b | None => false end)).
  { intros h' d' R' G. unfold get_open, dict_at, get_key. rewrite R'. cbn [bind]. rewrite G. destruct b; reflexivity. }
  destruct b as [b|]; cbn [set_open].
  - destruct (key_set h r d (bs "Open") (OBool b) R) as (h' & E & R' & O & K). exists h', (add_key (bs "Open") (OBool b) d). split; [exact E|]. split; [exact R'|].
    split; [exact K|]. split; [exact O|]. assert (G : dict_get (bs "Open") (add_key (bs "Open") (OBool b) d) = Some (OBool b)) by apply get_add_same.
    split; [exact G|]. exact (GO _ _ R' G).
  - destruct (text_set h r d (bs "Open") None R SD ltac:(discriminate)) as (h' & d' & E & R' & T & O & K & _). exists h', d'. split; [exact E|]. split; [exact R'|].
    split; [exact O|]. split; [exact K|]. inversion T as [A|]; subst. split; [exact A|]. exact (GO _ _ R' A).
Qed.
