(** Lemmas for the values of signature fields *)
From Coq Require Import String.
From Verif Require Import Base TokModel OwnModel ListModel PageModel DateModel LinkSpec AnnotSpec SigValueModel SigValueSpec ChainProofs.
From Verif Require DictProofs OwnProofs LinkProofs NameProofs.
Local Open Scope Z_scope.

Notation dict := (list (list Z * obj)).
Lemma ref_eqb_eq (a b : ref) : ref_eqb a b = true <-> a = b.
Proof.
  destruct a as [a1 a2], b as [b1 b2]. unfold ref_eqb. cbn. rewrite andb_true_iff, !Z.eqb_eq. split; [intros [-> ->]; reflexivity|].
  intros H. apply pair_equal_spec in H. exact H.
Qed.
Lemma set_same r o h : set r o h r = o.
Proof. unfold set. rewrite (proj2 (ref_eqb_eq r r) eq_refl). reflexivity. Qed.
Lemma set_other r o h q : q <> r -> set r o h q = h q.
Proof. intros N. unfold set. destruct (ref_eqb q r) eqn:E; [apply ref_eqb_eq in E; contradiction|reflexivity]. Qed.
Lemma get_removed k q (v : dict) : DictProofs.sorted v -> dict_get q (snd (remove_key k v)) = if beq q k then None else dict_get q v.
Proof.
  intros S. unfold remove_key, has_key. destruct (dict_get k v) eqn:G; cbn [snd]; [apply OwnProofs.erase_get, S|].
  destruct (beq q k) eqn:E; [apply beq_eq in E; subst; exact G|reflexivity].
Qed.
Lemma removed_sorted k (v : dict) : DictProofs.sorted v -> DictProofs.sorted (snd (remove_key k v)).
Proof. intros S. unfold remove_key. destruct (has_key k v); cbn [snd]; [apply OwnProofs.erase_sorted, S|exact S]. Qed.
Lemma get_added k x q (v : dict) : dict_get q (add_key k x v) = if beq q k then Some x else dict_get q v.
Proof.
  unfold add_key. destruct (beq q k) eqn:E; [apply beq_eq in E; subst; apply LinkProofs.get_add_same|apply LinkProofs.get_add_other, E].
Qed.

(** What is in the dictionary of the value *)
Definition build (t : list Z) : obj := ODict [(bs "App", ODict [(bs "Name", OStr false t)])].
Definition holds (x : said) (v : dict) : Prop :=
  DictProofs.sorted v /\ (forall a, dict_get (attr_key a) v = option_map (OStr false) (s_texts x a)) /\
  dict_get (bs "Prop_Build") v = option_map build (s_creator x) /\
  dict_get (bs "Reference") v = option_map (fun p => OArr [ODict (sig_ref p)]) (s_cert x).
Definition inv (f c : ref) (s : st) (x : option said) : Prop :=
  fst f < next_of s /\ fst c < next_of s /\ f <> c /\
  exists d k, heap_of s f = Some (ODict d) /\ heap_of s c = Some (ODict k) /\
  match x with
  | None => value_of s = None /\ dict_get (bs "V") d = None
  | Some x => exists n g v, value_of s = Some (At (n, g)) /\ (n, g) <> f /\ (n, g) <> c /\ n < next_of s /\
      dict_get (bs "V") d = Some (ORef n g) /\ heap_of s (n, g) = Some (ODict v) /\ holds x v /\
      (s_cert x <> None -> dict_get (bs "Perms") k = Some (ODict [(bs "DocMDP", ORef n g)]))
  end.

(** One change of the dictionary of the value *)
Lemma change_at s f n g v u : value_of s = Some (At (n, g)) -> heap_of s (n, g) = Some (ODict v) ->
  change s f u = (mk_st (set (n, g) (Some (ODict (u v))) (heap_of s)) (next_of s) (Some (At (n, g))), Ok tt).
Proof. intros V H. unfold change. rewrite V. cbn [value_dict]. unfold dict_at. rewrite H. reflexivity. Qed.
Lemma change_none s f u : value_of s = None -> change s f u = (s, Err EInvalidHandle).
Proof. unfold change. intros ->. reflexivity. Qed.
(** It keeps the rest *)
Lemma change_inv f c s x y u : inv f c s (Some x) -> (forall v, holds x v -> holds y (u v)) -> (s_cert y <> None -> s_cert x <> None) ->
  inv f c (fst (change s f u)) (Some y) /\ snd (change s f u) = Ok tt.
Proof.
  intros (Hf & Hc & N & d & k & F & C & n & g & v & V & N1 & N2 & L & D & Q & W & P) U K.
  rewrite (change_at _ _ n g v u V Q). cbn [fst snd]. split; [|reflexivity].
  split; [exact Hf|]. split; [exact Hc|]. split; [exact N|]. exists d, k. cbn [heap_of next_of value_of].
  rewrite set_other by (intros E; apply N1; symmetry; exact E). rewrite set_other by (intros E; apply N2; symmetry; exact E).
  split; [exact F|]. split; [exact C|]. exists n, g, (u v). rewrite set_same. repeat split; try assumption; try reflexivity.
  1-4: apply (U v W). intros G. apply P, K, G.
Qed.
Ltac keys := repeat match goal with |- context [beq (bs ?a) (bs ?b)] => let x := eval vm_compute in (beq (bs a) (bs b)) in change (beq (bs a) (bs b)) with x; cbv iota end.
Ltac tx T := first [exact (T AName)|exact (T AReason)|exact (T ALocation)|exact (T ADate)].

Lemma text_inv f c s x a t : inv f c s (Some x) ->
  inv f c (fst (set_text s f a t)) (say (Some x) (SetText a t)) /\ snd (set_text s f a t) = Ok tt.
Proof.
  intros I. unfold set_text, say. apply (change_inv f c s x); [exact I| |intros K; exact K].
  intros v (S & T & B & R). unfold holds. cbn [s_texts s_creator s_cert]. destruct t as [t|].
  - split; [apply DictProofs.dict_add_sorted, S|]. split; [|split].
    + intros b. rewrite get_added. destruct a, b; cbn [attr_eqb attr_key]; keys; try reflexivity; tx T.
    + rewrite get_added. destruct a; cbn [attr_key]; keys; exact B.
    + rewrite get_added. destruct a; cbn [attr_key]; keys; exact R.
  - split; [apply removed_sorted, S|]. split; [|split].
    + intros b. rewrite get_removed by exact S. destruct a, b; cbn [attr_eqb attr_key]; keys; try reflexivity; tx T.
    + rewrite get_removed by exact S. destruct a; cbn [attr_key]; keys; exact B.
    + rewrite get_removed by exact S. destruct a; cbn [attr_key]; keys; exact R.
Qed.
Lemma creator_inv f c s x t : inv f c s (Some x) ->
  inv f c (fst (set_creator s f t)) (say (Some x) (SetCreator t)) /\ snd (set_creator s f t) = Ok tt.
Proof.
  intros I. unfold set_creator, say. apply (change_inv f c s x); [exact I| |intros K; exact K].
  intros v (S & T & B & R). unfold holds. cbn [s_texts s_creator s_cert]. destruct t as [t|].
  - split; [apply DictProofs.dict_add_sorted, S|]. split; [|split].
    + intros b. rewrite get_added. destruct b; cbn [attr_key]; keys; tx T.
    + rewrite get_added. keys. reflexivity.
    + rewrite get_added. keys. exact R.
  - split; [apply removed_sorted, S|]. split; [|split].
    + intros b. rewrite get_removed by exact S. destruct b; cbn [attr_key]; keys; tx T.
    + rewrite get_removed by exact S. keys. reflexivity.
    + rewrite get_removed by exact S. keys. exact R.
Qed.
Lemma ensure_new f c s : inv f c s None -> inv f c (fst (ensure s f)) (Some nothing) /\ snd (ensure s f) = Ok tt.
Proof.
  intros (Hf & Hc & N & d & k & F & C & V & D). unfold ensure. rewrite V. unfold create. cbn [heap_of next_of value_of].
  assert (N1 : (next_of s, 0) <> f) by (intros E; subst f; cbn in Hf; lia).
  assert (N2 : (next_of s, 0) <> c) by (intros E; subst c; cbn in Hc; lia).
  assert (F1 : set (next_of s, 0) (Some (ODict (add_key (bs "Type") (OName (bs "Sig")) []))) (heap_of s) f = Some (ODict d)).
  { rewrite set_other by (intros E; apply N1; symmetry; exact E). exact F. }
  rewrite (NameProofs.set_key_val _ _ _ _ _ F1). cbn [fst snd]. split; [|reflexivity].
  unfold inv. cbn [heap_of next_of value_of]. split; [lia|]. split; [lia|]. split; [exact N|].
  exists (dict_add (bs "V") (ORef (next_of s) 0) d), k. rewrite set_same. split; [reflexivity|].
  rewrite set_other by (intros E; apply N; symmetry; exact E). rewrite set_other by (intros E; apply N2; symmetry; exact E). split; [exact C|].
  exists (next_of s), 0, [(bs "Type", OName (bs "Sig"))]. rewrite (set_other f) by exact N1. rewrite set_same.
  repeat split; try assumption; try reflexivity; try lia.
  - apply LinkProofs.get_add_same.
  - repeat constructor.
  - intros a. destruct a; reflexivity.
  - intros G. destruct (G eq_refl).
Qed.
Lemma ensure_old f c s x : inv f c s (Some x) -> ensure s f = (s, Ok tt).
Proof. intros (_ & _ & _ & d & k & _ & _ & n & g & v & V & _). unfold ensure. rewrite V. reflexivity. Qed.
Lemma prepared x v a b t k r : holds x v -> holds x
  (add_key (bs "ByteRange") r (add_key (bs "Contents") k (add_key (bs "Type") (OName t) (add_key (bs "SubFilter") (OName b) (add_key (bs "Filter") (OName a) v))))).
Proof.
  intros (S & T & B & R). split; [repeat apply DictProofs.dict_add_sorted; exact S|]. split; [|split].
  - intros q. rewrite !get_added. destruct q; cbn [attr_key]; keys; tx T.
  - rewrite !get_added. keys. exact B.
  - rewrite !get_added. keys. exact R.
Qed.
Lemma prepare_inv f c s x a b t k r : inv f c s x ->
  inv f c (fst (prepare s f a b t k r)) (say x (Prepare a b t k r)) /\ snd (prepare s f a b t k r) = Ok tt.
Proof.
  intros I. unfold prepare. destruct x as [x|].
  - rewrite (ensure_old f c s x I). apply (change_inv f c s x); [exact I|intros v; apply prepared|intros G; exact G].
  - destruct (ensure_new f c s I) as [J E]. destruct (ensure s f) as [s1 e]. cbn [fst snd] in J, E. subst e.
    apply (change_inv f c s1 nothing); [exact J|intros v; apply prepared|intros G; exact G].
Qed.
Lemma certify_inv f c s x p : inv f c s (Some x) ->
  inv f c (fst (certify s f c p)) (say (Some x) (Certify p)) /\ snd (certify s f c p) = Ok tt.
Proof.
  intros (Hf & Hc & N & d & k & F & C & n & g & v & V & N1 & N2 & L & D & Q & (S & T & B & R) & P). unfold certify.
  rewrite (change_at _ _ n g v _ V Q). unfold create. cbn [heap_of next_of value_of]. set (m := next_of s) in *.
  set (v1 := snd (remove_key (bs "Reference") v)).
  set (h3 := set (m + 1, 0) (Some (ODict (params p))) (set (m, 0) (Some (ODict (sig_ref p))) (set (n, g) (Some (ODict v1)) (heap_of s)))).
  assert (H3 : forall q : ref, fst q < m -> q <> (n, g) -> h3 q = heap_of s q).
  { intros q Lq Nq. unfold h3. rewrite !set_other; [reflexivity|exact Nq| |]; intros ->; cbn in Lq; lia. }
  assert (Hq : h3 (n, g) = Some (ODict v1)).
  { unfold h3. rewrite set_other by (intros E; apply pair_equal_spec in E; lia). rewrite set_other by (intros E; apply pair_equal_spec in E; lia). apply set_same. }
  assert (F3 : h3 f = Some (ODict d)) by (rewrite H3; [exact F|exact Hf|intros E; apply N1; symmetry; exact E]).
  assert (C3 : h3 c = Some (ODict k)) by (rewrite H3; [exact C|exact Hc|intros E; apply N2; symmetry; exact E]).
  rewrite (NameProofs.dict_at_val h3 f d F3). unfold get_key. rewrite D. rewrite (NameProofs.set_key_val _ _ _ _ _ C3).
  change (add_key (bs "DocMDP") (ORef n g) []) with [(bs "DocMDP", ORef n g)].
  set (h4 := set c (Some (ODict (dict_add (bs "Perms") (ODict [(bs "DocMDP", ORef n g)]) k))) h3).
  assert (I4 : inv f c (mk_st h4 (m + 1 + 1) (Some (At (n, g)))) (Some (mk_said (s_texts x) (s_creator x) None))).
  { unfold inv. cbn [heap_of next_of value_of]. split; [lia|]. split; [lia|]. split; [exact N|].
    exists d, (dict_add (bs "Perms") (ODict [(bs "DocMDP", ORef n g)]) k). unfold h4. rewrite set_same. rewrite set_other by exact N. split; [exact F3|]. split; [reflexivity|].
    exists n, g, v1. rewrite set_other by exact N2. repeat split; try assumption; try lia.
    - apply removed_sorted, S.
    - intros a. unfold v1. rewrite get_removed by exact S. destruct a; cbn [attr_key]; keys; tx T.
    - unfold v1. rewrite get_removed by exact S. keys. exact B.
    - unfold v1. rewrite get_removed by exact S. keys. reflexivity.
    - intros G. destruct (G eq_refl). }
  assert (Q4 : h4 (n, g) = Some (ODict v1)) by (unfold h4; rewrite set_other by exact N2; exact Hq).
  rewrite (change_at (mk_st h4 (m + 1 + 1) (Some (At (n, g)))) f n g v1 _ eq_refl Q4). cbn [fst snd]. split; [|reflexivity].
  unfold inv, say. cbn [heap_of next_of value_of]. split; [lia|]. split; [lia|]. split; [exact N|].
  exists d, (dict_add (bs "Perms") (ODict [(bs "DocMDP", ORef n g)]) k).
  rewrite set_other by (intros E; apply N1; symmetry; exact E). rewrite set_other by (intros E; apply N2; symmetry; exact E).
  unfold h4 at 1 2. rewrite set_same. rewrite set_other by exact N. split; [exact F3|]. split; [reflexivity|].
  exists n, g, (add_key (bs "Reference") (OArr [ODict (sig_ref p)]) v1). rewrite set_same. repeat split; try assumption; try lia.
  - apply DictProofs.dict_add_sorted, removed_sorted, S.
  - intros a. rewrite get_added. unfold v1. rewrite get_removed by exact S. cbn [s_texts]. destruct a; cbn [attr_key]; keys; tx T.
  - rewrite get_added. unfold v1. rewrite get_removed by exact S. keys. exact B.
  - rewrite get_added. keys. reflexivity.
  - intros _. apply LinkProofs.get_add_same.
Qed.

(** One operation: it raises exactly when there is no value to change, and then changes nothing *)
Definition needs_value (o : op) : bool := match o with Ensure | Prepare _ _ _ _ _ => false | _ => true end.
Lemma step_inv f c s x o : inv f c s x -> inv f c (fst (step f c s o)) (say x o) /\
  snd (step f c s o) = match x with None => if needs_value o then Err EInvalidHandle else Ok tt | Some _ => Ok tt end.
Proof.
  intros I. destruct x as [x|].
  - destruct o as [a t|t| |a b t k r|p]; cbn [step].
    + apply text_inv, I.
    + apply creator_inv, I.
    + rewrite (ensure_old f c s x I). split; [exact I|reflexivity].
    + apply prepare_inv, I.
    + apply certify_inv, I.
  - assert (V : value_of s = None) by (destruct I as (_ & _ & _ & d & k & _ & _ & V & _); exact V).
    destruct o as [a t|t| |a b t k r|p]; cbn [step needs_value say].
    + unfold set_text. rewrite (change_none s f _ V). split; [exact I|reflexivity].
    + unfold set_creator. rewrite (change_none s f _ V). split; [exact I|reflexivity].
    + apply ensure_new, I.
    + apply (prepare_inv f c s None), I.
    + unfold certify. rewrite (change_none s f _ V). split; [exact I|reflexivity].
Qed.
Lemma run_inv f c : forall l s x, inv f c s x -> inv f c (run f c s l) (fold_left say l x).
Proof. induction l as [|o l IH]; intros s x I; [exact I|]. apply (IH (fst (step f c s o))), (step_inv f c s x o I). Qed.

(** What it means *)
Lemma text_of h (v : dict) k t : dict_get k v = option_map (OStr false) t -> text_is h v k t.
Proof.
  intros G. destruct t as [t|]; [|apply TNone; exact G]. apply (TSome h v k false). exists (OStr false t). split; [exact G|]. apply VDirect. intros n g E. discriminate E.
Qed.
Lemma entry_of h (v : dict) k o : dict_get k v = Some o -> (forall n g, o <> ORef n g) -> entry_is h v k o.
Proof. intros G N. exists o. split; [exact G|]. apply VDirect, N. Qed.
Lemma inv_says f c s x : inv f c s x -> says (heap_of s) f c x.
Proof.
  intros (Hf & Hc & N & d & k & F & C & I). exists d. split; [exact F|]. destruct x as [x|]; [|exact (proj2 I)].
  destruct I as (n & g & v & V & N1 & N2 & L & D & Q & (S & T & B & R) & P). exists n, g, v. split; [exact D|]. split; [exact Q|].
  split; [intros a; apply text_of, T|]. split.
  - destruct (s_creator x) as [t|]; [|exact B]. exists [(bs "App", ODict [(bs "Name", OStr false t)])], [(bs "Name", OStr false t)].
    split; [apply entry_of; [exact B|discriminate]|]. split; [apply entry_of; [reflexivity|discriminate]|]. apply text_of. reflexivity.
  - destruct (s_cert x) as [p|]; [|exact R]. split.
    + exists (ODict (sig_ref p)). split; [apply entry_of; [exact R|discriminate]|]. exists (sig_ref p), (params p). split; [reflexivity|].
      repeat split; apply entry_of; try reflexivity; discriminate.
    + exists k, [(bs "DocMDP", ORef n g)]. split; [exact C|]. split; [apply entry_of; [apply P; discriminate|discriminate]|reflexivity].
Qed.
Definition told (x : option said) (a : attr) : option (list Z) := match x with Some y => s_texts y a | None => None end.
Lemma inv_get f c s x a : inv f c s x -> get_text s f a = Ok (told x a).
Proof.
  intros (Hf & Hc & N & d & k & F & C & I). unfold get_text, told. destruct x as [x|]; [|rewrite (proj1 I); reflexivity].
  destruct I as (n & g & v & V & N1 & N2 & L & D & Q & (S & T & B & R) & P). rewrite V. cbn [value_dict]. unfold dict_at. rewrite Q. cbn [bind].
  unfold dict_find, get_key. rewrite (T a). destruct (s_texts x a); reflexivity.
Qed.
Lemma inv_reopen f c s x : inv f c s x -> reopen s f = Ok s.
Proof.
  intros (Hf & Hc & N & d & k & F & C & I). unfold reopen, find_value, dict_at. rewrite F. cbn [bind]. unfold get_key.
  destruct s as [h m v0]. cbn [heap_of next_of value_of] in *. destruct x as [x|].
  - destruct I as (n & g & v & V & N1 & N2 & L & D & Q & W). rewrite D, Q, V. reflexivity.
  - destruct I as [V D]. rewrite D, V. reflexivity.
Qed.
(** A field without a value *)
Lemma fresh_inv f c h m d k : h f = Some (ODict d) -> dict_get (bs "V") d = None -> h c = Some (ODict k) -> f <> c -> fst f < m -> fst c < m ->
  inv f c (mk_st h m None) None.
Proof. intros F D C N Hf Hc. split; [exact Hf|]. split; [exact Hc|]. split; [exact N|]. exists d, k. repeat split; assumption. Qed.

(** What is not touched: all but the field, the catalog and new objects *)
Definition outside (f c : ref) (m : Z) (q : ref) : Prop := q <> f /\ q <> c /\ fst q < m.
Definition kept (f c : ref) (m : Z) (s s' : st) : Prop :=
  (forall q, outside f c m q -> heap_of s' q = heap_of s q) /\ m <= next_of s' /\
  (forall r, value_of s' = Some (At r) -> ~ outside f c m r).
Definition own (f c : ref) (m : Z) (s : st) : Prop := m <= next_of s /\ forall r, value_of s = Some (At r) -> ~ outside f c m r.
Lemma kept_own f c m s s' : kept f c m s s' -> own f c m s'.
Proof. intros (_ & A & B). split; assumption. Qed.
Lemma kept_refl f c m s : own f c m s -> kept f c m s s.
Proof. intros [A B]. split; [reflexivity|]. split; assumption. Qed.
Lemma kept_trans f c m s s1 s2 : kept f c m s s1 -> kept f c m s1 s2 -> kept f c m s s2.
Proof. intros (A & _) (A2 & B2 & C2). split; [|split; assumption]. intros q O. rewrite (A2 q O). exact (A q O). Qed.
Lemma change_kept f c m s u : own f c m s -> kept f c m s (fst (change s f u)).
Proof.
  intros O. pose proof (kept_refl f c m s O) as K. destruct O as [A B]. unfold change. destruct (value_of s) as [p|] eqn:V; [|exact K].
  destruct (value_dict (heap_of s) f p) as [v|e| |]; cbn [fst]; try exact K.
  split; [|split; [exact A|exact B]]. intros q O. destruct p as [|r]; cbn [put_dict heap_of].
  - destruct (heap_of s f) as [[]|]; try reflexivity. apply set_other. exact (proj1 O).
  - apply set_other. intros E. subst r. exact (B q eq_refl O).
Qed.
Lemma create_kept f c m s d : own f c m s -> kept f c m s (fst (create s d)).
Proof.
  intros [A B]. unfold create. cbn [fst]. split; [|split; [cbn; lia|exact B]]. intros q (_ & _ & L). cbn [heap_of]. apply set_other.
  intros ->. cbn in L. lia.
Qed.
Lemma set_key_kept f c m s r k x h : own f c m s -> ~ outside f c m r -> set_key (heap_of s) r k x = Ok h ->
  kept f c m s (mk_st h (next_of s) (value_of s)).
Proof.
  intros [A B] N E. unfold set_key in E. apply bind_ok in E as (d & D & E). injection E as <-. split; [|split; [exact A|exact B]].
  intros q O. cbn [heap_of]. apply set_other. intros ->. exact (N O).
Qed.
Lemma ensure_kept f c m s : own f c m s -> kept f c m s (fst (ensure s f)).
Proof.
  intros O. unfold ensure. destruct (value_of s) as [p|] eqn:V; [apply kept_refl, O|].
  pose proof (create_kept f c m s (add_key (bs "Type") (OName (bs "Sig")) []) O) as K.
  destruct (create s _) as [s1 r] eqn:E. cbn [fst] in K.
  assert (R : ~ outside f c m r) by (unfold create in E; apply pair_equal_spec in E as [_ <-]; intros (_ & _ & L); cbn in L; destruct O as [A _]; lia).
  set (s2 := mk_st (heap_of s1) (next_of s1) (Some (At r))).
  assert (K2 : kept f c m s s2).
  { destruct K as (A & B & _). split; [exact A|]. split; [exact B|]. intros q Eq. injection Eq as ->. exact R. }
  destruct (set_key (heap_of s2) f (bs "V") (ORef (fst r) (snd r))) as [h|e| |] eqn:G; cbn [fst]; try exact K2.
  apply (kept_trans _ _ _ _ s2 _ K2). apply (set_key_kept f c m s2 f (bs "V") (ORef (fst r) (snd r)) h (kept_own _ _ _ _ _ K2)); [|exact G].
  intros (X & _). exact (X eq_refl).
Qed.
Lemma certify_kept f c m s p : own f c m s -> kept f c m s (fst (certify s f c p)).
Proof.
  intros O. unfold certify. pose proof (change_kept f c m s (fun v => snd (remove_key (bs "Reference") v)) O) as K1.
  destruct (change s f _) as [s1 [u|e| |]]; cbn [fst] in K1; try exact K1.
  pose proof (create_kept f c m s1 (sig_ref p) (kept_own _ _ _ _ _ K1)) as K2. destruct (create s1 _) as [s2 r2]. cbn [fst] in K2.
  pose proof (create_kept f c m s2 (params p) (kept_own _ _ _ _ _ K2)) as K3. destruct (create s2 _) as [s3 r3]. cbn [fst] in K3.
  pose proof (kept_trans _ _ _ _ _ _ (kept_trans _ _ _ _ _ _ K1 K2) K3) as K.
  destruct (dict_at (heap_of s3) f) as [d|e| |]; cbn [fst]; try exact K.
  destruct (get_key (bs "V") d) as [[]|]; cbn [fst]; try exact K.
  destruct (set_key (heap_of s3) c (bs "Perms") _) as [h|e| |] eqn:G; cbn [fst]; try exact K.
  pose proof (set_key_kept f c m s3 c _ _ h (kept_own _ _ _ _ _ K3) (fun X => proj1 (proj2 X) eq_refl) G) as K4.
  apply (kept_trans _ _ _ _ _ _ K). apply (kept_trans _ _ _ _ _ _ K4). apply change_kept. exact (kept_own _ _ _ _ _ K4).
Qed.
Lemma step_kept f c m s o : own f c m s -> kept f c m s (fst (step f c s o)).
Proof.
  intros O. destruct o as [a t|t| |a b t k r|p]; cbn [step].
  - apply change_kept, O.
  - apply change_kept, O.
  - apply ensure_kept, O.
  - unfold prepare. pose proof (ensure_kept f c m s O) as K. destruct (ensure s f) as [s1 [u|e| |]]; cbn [fst] in K |- *; try exact K.
    apply (kept_trans _ _ _ _ _ _ K). apply change_kept. exact (kept_own _ _ _ _ _ K).
  - apply certify_kept, O.
Qed.
Lemma run_kept f c m : forall l s, own f c m s -> kept f c m s (run f c s l).
Proof.
  induction l as [|o l IH]; intros s O; [apply kept_refl, O|]. pose proof (step_kept f c m s o O) as K.
  apply (kept_trans _ _ _ _ _ _ K). exact (IH _ (kept_own _ _ _ _ _ K)).
Qed.
(** The other texts stay *)
Definition str_of (o : option obj) : option (list Z) := match o with Some (OStr _ x) => Some x | _ => None end.
Lemma text_others f s a t s' b : b <> a -> set_text s f a (Some t) = (s', Ok tt) -> get_text s' f b = get_text s f b.
Proof.
  intros N. unfold set_text, change, get_text. destruct (value_of s) as [p|] eqn:V; [|discriminate].
  destruct (value_dict (heap_of s) f p) as [v|e| |] eqn:D; try discriminate. intros E. apply pair_equal_spec in E as [<- _].
  cbn [value_of heap_of bind]. rewrite ?V.
  assert (X : forall r d d', heap_of s r = Some (ODict d) ->
    str_of (dict_find (set r (Some (ODict d')) (heap_of s)) (attr_key b) (add_key (attr_key a) (OStr false t) v)) = str_of (dict_find (heap_of s) (attr_key b) v)).
  { intros r d d' R. unfold dict_find, get_key. rewrite get_added.
    assert (K : beq (attr_key b) (attr_key a) = false) by (destruct a, b; try reflexivity; destruct (N eq_refl)). rewrite K.
    destruct (dict_get (attr_key b) v) as [[| | | | | |n g| |]|]; try reflexivity. unfold set.
    destruct (ref_eqb (n, g) r) eqn:Q; [|reflexivity]. apply ref_eqb_eq in Q. subst r. rewrite R. reflexivity. }
  destruct p as [|r].
  - cbn [value_dict] in D. destruct (heap_of s f) as [[| | | | | | | |d]|] eqn:F; unfold dict_at in D; rewrite F in D; try discriminate D. cbn [bind] in D.
    cbn [value_dict put_dict]. rewrite F. unfold dict_at. rewrite set_same. cbn [bind]. unfold get_key. rewrite get_added. keys. cbn [bind].
    f_equal. exact (X f d _ F).
  - cbn [value_dict] in D. unfold dict_at in D. destruct (heap_of s r) as [[| | | | | | | |d]|] eqn:F; try discriminate D.
    cbn [value_dict put_dict]. unfold dict_at. rewrite set_same. cbn [bind]. f_equal. exact (X r d _ F).
Qed.
