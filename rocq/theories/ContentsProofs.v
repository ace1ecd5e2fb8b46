(** Reading content streams shows their instructions. *)
From Coq Require Import Lia String Permutation.
From Verif Require Import Base TokModel ReadEq WriteModel DictProofs TokProofs LexProofs ChainProofs ObjSpec ObjProofs FuelProofs ParseProofs CMapModel CMapSpec CMapProofs CMapPropLemmas OpTables ContentsModel ContentsSpec ContentsDevProofs ContentsTokProofs.
Local Open Scope Z_scope.

(** ** Operands *)
Lemma operands_word args t k1 : values_text args t k1 -> forall n k s st fuel, word_text n k1 k -> quiet s -> reads pbuf s t -> (mu s < fuel)%nat ->
  operands fuel st s = Ok (rev args ++ st, Some (PKey n, mk_tst [] k)).
Proof.
  induction 1 as [k0|ws o t k0 os k' B V VT IH]; intros n k s st fuel W Q R F.
  - destruct W as (ws & -> & B & W & ST). destruct fuel as [|f]; [lia|]. cbn [operands]. rewrite (ps_word s ws n k) by assumption. reflexivity.
  - destruct (ps_value _ _ _ _ _ Q R B V) as (s' & E & R' & Q'). destruct fuel as [|f]; [lia|]. cbn [operands]. rewrite E. cbn [bind]. pose proof (next_mu _ _ _ E).
    rewrite (IH n k s' (o :: st) f W Q' R' ltac:(lia)). cbn [rev]. rewrite <- app_assoc. reflexivity.
Qed.
Lemma blank_tok ws buf : blank ws -> tok buf ws = None.
Proof. intros B. rewrite <- (app_nil_r ws), tok_blank by exact B. reflexivity. Qed.
Lemma operands_end ws st fuel : blank ws -> operands (S fuel) st (mk_tst [] ws) = Ok (st, None).
Proof. intros B. cbn [operands]. unfold ps_next, next_token. cbn [tq tin]. rewrite blank_tok by exact B. reflexivity. Qed.

(** ** Images *)
Definition add_all (es d : list (list Z * obj)) : list (list Z * obj) := fold_left (fun d p => dict_add (fst p) (snd p) d) es d.
Lemma add_all_spec es : forall d, DictProofs.sorted d -> DictProofs.sorted (add_all es d) /\ (NoDup (map fst es) -> forall q, dict_get q (add_all es d) = match dict_get q es with Some v => Some v | None => dict_get q d end).
Proof.
  induction es as [|[k v] es IH]; intros d S; [split; [exact S|reflexivity]|]. cbn [add_all fold_left fst snd]. destruct (IH (dict_add k v d) (dict_add_sorted _ _ _ S)) as [A B]. split; [exact A|].
  intros N q. cbn [map fst] in N. inversion N as [|? ? NI ND]; subst. fold (add_all es (dict_add k v d)). rewrite (B ND q). cbn [dict_get].
  rewrite dict_get_add by exact S. destruct (beq q k) eqn:E; [|reflexivity]. apply beq_eq in E. subst q. destruct (dict_get k es) as [v'|] eqn:G; [|reflexivity]. exfalso. apply NI. apply (dict_get_in k es v' ND) in G. apply (in_map fst) in G. exact G.
Qed.
Lemma add_all_sorted es d : DictProofs.sorted d -> Permutation es d -> add_all es [] = d.
Proof.
  intros S P. destruct (add_all_spec es [] sorted_nil) as [A B]. pose proof (sorted_nodup d S) as ND.
  assert (NE : NoDup (map fst es)) by (apply (Permutation_NoDup (l := map fst d)); [apply Permutation_map, Permutation_sym; exact P|exact ND]).
  apply dict_ext; [exact A|exact S|]. intros q. rewrite (B NE). rewrite (dict_get_perm q es d NE ND) by (intros p; split; apply Permutation_in; [|apply Permutation_sym]; exact P). destruct (dict_get q d); reflexivity.
Qed.
Lemma values_two a b os t k' : values_text (a :: b :: os) t k' -> exists ws1 t1 ws2 t2 k, t = ws1 ++ t1 ++ ws2 ++ t2 ++ k /\ blank ws1 /\ blank ws2 /\ value_text a t1 (ws2 ++ t2 ++ k) /\ value_text b t2 k /\ values_text os k k'.
Proof. intros H. inversion H as [|ws1 ? t1 k1 ? ? B1 V1 H1]; subst. inversion H1 as [|ws2 ? t2 k2 ? ? B2 V2 H2]; subst. exists ws1, t1, ws2, t2, k2. repeat (split; [first [reflexivity|assumption]|]). exact H2. Qed.
Lemma try_mu s o s' : ps_try_variant s = Ok (Some o, s') -> (S (mu s') <= mu s)%nat.
Proof. intros H. apply variant_mu with (o := o). unfold ps_variant. unfold ps_try_variant in H. rewrite H. reflexivity. Qed.
Lemma image_dict_reads es : forall t k1 k c s fuel, values_text (entries es) t k1 -> word_text (bs "ID") k1 k -> quiet s -> reads pbuf s t -> (mu s < fuel)%nat ->
  image_dict fuel c s = Ok (set_dict c (add_all es (ct_dict c)), true, mk_tst [] k).
Proof.
  induction es as [|[n v] es IH]; intros t k1 k c s fuel V W Q R F.
  - cbn [entries flat_map] in V. inversion V; subst. destruct W as (ws & -> & B & W & ST). destruct fuel as [|f]; [lia|]. cbn [image_dict]. rewrite (ps_word s ws (bs "ID") k) by assumption. cbn [bind]. rewrite beq_refl. destruct c; reflexivity.
  - change (entries ((n, v) :: es)) with (OName n :: v :: entries es) in V. apply values_two in V as (ws1 & t1 & ws2 & t2 & k2 & -> & B1 & B2 & V1 & V2 & V).
    destruct (ps_value _ _ _ _ _ Q R B1 V1) as (s1 & E1 & R1 & Q1). destruct (try_value _ _ _ _ _ Q1 R1 B2 V2) as (s2 & E2 & R2 & Q2).
    destruct fuel as [|f]; [lia|]. cbn [image_dict]. rewrite E1. cbn [bind]. rewrite E2. cbn [bind]. pose proof (next_mu _ _ _ E1). pose proof (try_mu _ _ _ E2).
    rewrite (IH _ _ _ _ _ f V W Q2 R2 ltac:(lia)). reflexivity.
Qed.
Definition ei_ok (st : ei) (acc : list Z) : Prop :=
  match st with WantE => True | WantI => exists a, acc = 69 :: a | WantWs => exists a, acc = 73 :: 69 :: a end.
Lemma data_runs d : forall st acc k, ei_ok st acc -> no_end (rev acc ++ d) -> exists st', image_data st acc (d ++ k) = image_data st' (rev d ++ acc) k /\ ei_ok st' (rev d ++ acc).
Proof.
  induction d as [|c d IH]; intros st acc k O N; [exists st; split; [reflexivity|exact O]|].
  assert (N' : no_end (rev (c :: acc) ++ d)) by (cbn [rev]; rewrite <- app_assoc; exact N).
  cbn [app rev]. rewrite <- app_assoc. cbn [app image_data]. destruct st.
  - apply IH; [|exact N']. destruct (c =? 69) eqn:E; [apply Z.eqb_eq in E; subst; exists acc; reflexivity|exact I].
  - apply IH; [|exact N']. destruct (c =? 73) eqn:E; [apply Z.eqb_eq in E; subst; destruct O as [a ->]; exists a; reflexivity|exact I].
  - destruct (is_ws c) eqn:E; [|apply IH; [exact I|exact N']]. exfalso. destruct O as [a ->]. apply (N (rev a) c d E). cbn [rev]. rewrite <- !app_assoc. reflexivity.
Qed.
Lemma data_reads c d w k : no_end d -> ends_free d -> is_ws w = true -> read_image_data (c :: d ++ 69 :: 73 :: w :: k) = Some (d, k).
Proof.
  intros N [F1 F2] W. cbn [read_image_data]. destruct (data_runs d WantE [] (69 :: 73 :: w :: k) I N) as (st & -> & O). rewrite app_nil_r in *. destruct st.
  - cbn [image_data]. change (69 =? 69) with true. change (73 =? 73) with true. cbn [image_data]. rewrite W. cbn [skipn]. rewrite rev_involutive. reflexivity.
  - exfalso. destruct O as [a E]. apply (F1 (rev a)). rewrite <- (rev_involutive d), E. reflexivity.
  - exfalso. destruct O as [a E]. apply (F2 (rev a)). rewrite <- (rev_involutive d), E. cbn [rev]. rewrite <- app_assoc. reflexivity.
Qed.
(** What is read as data is followed by EI and white space *)
Lemma data_sound b : forall st acc d k, ei_ok st acc -> image_data st acc b = Some (d, k) -> exists w, rev acc ++ b = d ++ 69 :: 73 :: w :: k /\ is_ws w = true.
Proof.
  induction b as [|c b IH]; intros st acc d k O H; [discriminate|]. cbn [image_data] in H.
  assert (X : forall st', ei_ok st' (c :: acc) -> image_data st' (c :: acc) b = Some (d, k) -> exists w, rev acc ++ c :: b = d ++ 69 :: 73 :: w :: k /\ is_ws w = true).
  { intros st' O' H'. destruct (IH _ _ _ _ O' H') as (w & E & W). exists w. split; [|exact W]. rewrite <- E. cbn [rev]. rewrite <- app_assoc. reflexivity. }
  destruct st.
  - eapply X; [|exact H]. destruct (c =? 69) eqn:E; [apply Z.eqb_eq in E; subst; exists acc; reflexivity|exact I].
  - eapply X; [|exact H]. destruct (c =? 73) eqn:E; [apply Z.eqb_eq in E; subst; destruct O as [a ->]; exists a; reflexivity|exact I].
  - destruct (is_ws c) eqn:E; [|exact (X WantE I H)]. injection H as <- <-. exists c. split; [|exact E]. destruct O as [a ->]. cbn [skipn rev]. rewrite <- !app_assoc. reflexivity.
Qed.

(** ** Steps *)
Inductive steps (w : world) (a : rargs) : reader -> content -> list content -> reader -> content -> Prop :=
| st_nil r c : steps w a r c [] r c
| st_cons r c r1 c1 out r2 c2 : try_read_next w a r c = Ok (true, r1, c1) -> steps w a r1 c1 out r2 c2 -> steps w a r c (c1 :: out) r2 c2.
Lemma steps_app w a r c o1 r1 c1 o2 r2 c2 : steps w a r c o1 r1 c1 -> steps w a r1 c1 o2 r2 c2 -> steps w a r c (o1 ++ o2) r2 c2.
Proof. induction 1 as [|r c r1 c1 out r2' c2' E H IH]; intros G; [exact G|]. cbn [app]. apply (st_cons _ _ _ _ _ _ _ _ _ E). exact (IH G). Qed.
Lemma steps_all w a r c out r1 c1 r2 c2 : steps w a r c out r1 c1 -> try_read_next w a r1 c1 = Ok (false, r2, c2) -> forall fuel, (length out < fuel)%nat -> read_all fuel w a r c = Ok out.
Proof.
  induction 1 as [r c|r c r1 c1 out r2' c2' E H IH]; intros G fuel F; (destruct fuel as [|f]; [cbn [length] in F; lia|]); cbn [read_all].
  - rewrite G. reflexivity.
  - rewrite E. cbn [bind]. rewrite (IH G f) by (cbn [length] in F; lia). reflexivity.
Qed.
Definition objs (l : list input) : list Z := flat_map (fun i => match in_canvas i with Some (_, o) => [o] | None => [] end) l.
Lemma recursively_in l x : called_recursively l x = existsb (fun y => y =? x) (objs l).
Proof. induction l as [|i l IH]; [reflexivity|]. unfold called_recursively in *. cbn [existsb objs flat_map]. rewrite existsb_app. fold (objs l). rewrite IH. destruct (in_canvas i) as [[cv o]|]; cbn [existsb]; rewrite ?orb_false_r; reflexivity. Qed.
Lemma recursively_yes l x : In x (objs l) -> called_recursively l x = true.
Proof. intros H. rewrite recursively_in. apply existsb_exists. exists x. split; [exact H|apply Z.eqb_refl]. Qed.
Lemma recursively_no l x : ~ In x (objs l) -> called_recursively l x = false.
Proof. intros H. rewrite recursively_in. apply not_true_is_false. intros E. apply existsb_exists in E as (y & I & E). apply Z.eqb_eq in E. subst. contradiction. Qed.

Lemma next_op w a cv text l c args n k k1 : values_text args text k1 -> word_text n k1 k ->
  next_content w a (mk_rd (mk_in cv text :: l) false []) (before_read c) =
  match op_of_name n with
  | None => Ok (true, mk_rd (mk_in cv k :: l) false [], set_read (before_read c) CUnexpected (rev args) 0 n)
  | Some op =>
    do c <- check_count op (set_read (before_read c) COperator (rev args) op n);
    if op =? op_Do then
      match cv with
      | None => Ok (true, mk_rd (mk_in cv k :: l) false [], c)
      | Some (v, _) => do (l, c) <- follow w a v (mk_in cv k :: l) c; Ok (true, mk_rd l false [], c)
      end
    else if op =? op_BI then
      do (e, s) <- image_dict (S (length k + 0)) c (mk_tst [] k); let (c, ok) := e : content * bool in
      Ok (ok, mk_rd (mk_in cv (tin s) :: l) (if ok then true else false) (tq s), if ok then set_type c CImageDict else c)
    else Ok (true, mk_rd (mk_in cv k :: l) false [], c)
  end.
Proof.
  intros V W. unfold next_content. cbn [rd_inputs in_dev rd_q in_canvas rd_img].
  rewrite (operands_word _ _ _ V n k (mk_tst [] text) (ct_stack (before_read c)) (S (length text + length (@nil token))) W Logic.I ltac:(constructor) ltac:(unfold mu; cbn [tin tq length]; lia)). cbn [bind before_read ct_stack]. rewrite app_nil_r. cbn [tin tq length]. reflexivity.
Qed.
Lemma iso_counts : forallb (fun x => match snd x with Some n => 0 <=? n | None => true end) iso_ops = true. Proof. vm_compute. reflexivity. Qed.
Lemma check_count_iso n k op c args : In (n, k) iso_ops -> op_name op = Some n -> ct_stack c = rev args -> ct_warn c = 0 -> check_count op c = Ok (set_warn c (count_warning k args)).
Proof.
  intros In1 N S W. destruct (iso_op n k In1) as (op' & E & _ & C). rewrite (op_name_of _ _ N) in E. injection E as ->. unfold check_count. rewrite C, S, rev_length. f_equal. unfold add_warn, count_warning. rewrite W, !Z.lor_0_l.
  pose proof (proj1 (forallb_forall _ _) iso_counts _ In1) as P. cbn [snd] in P. destruct c as [ct cw cs co ck cd ca cn cx]. cbn [ct_warn ct_stack] in *. subst cw. destruct k as [z|]; cbn [iso_count]; [|reflexivity]. apply Z.leb_le in P.
  destruct (z =? -1) eqn:E1; [lia|]. cbn [orb]. destruct (Z.of_nat (length args) =? z) eqn:E2.
  - apply Z.eqb_eq in E2. rewrite (proj2 (Z.ltb_ge _ _)), (proj2 (Z.ltb_ge _ _)) by lia. reflexivity.
  - destruct (Z.of_nat (length args) <? z) eqn:E3; [reflexivity|]. rewrite (proj2 (Z.ltb_lt _ _)) by lia. reflexivity.
Qed.
Lemma name_Do : op_name op_Do = Some (bs "Do"). Proof. reflexivity. Qed.
Lemma name_BI : op_name op_BI = Some (bs "BI"). Proof. reflexivity. Qed.
Lemma in_Do : In (bs "Do", Some 1) iso_ops. Proof. vm_compute. tauto. Qed.
Lemma in_BI : In (bs "BI", Some 0) iso_ops. Proof. vm_compute. tauto. Qed.
Lemma of_Do : op_of_name (bs "Do") = Some op_Do. Proof. reflexivity. Qed.
Lemma of_BI : op_of_name (bs "BI") = Some op_BI. Proof. reflexivity. Qed.
Lemma warn_or n args : Z.lor (count_warning n args) w_xobj = count_warning n args + w_xobj.
Proof. unfold count_warning. destruct n; [|reflexivity]. cbv zeta. destruct (_ <? _); [reflexivity|]. destruct (_ <? _); reflexivity. Qed.

Section Shows.
Variable w : world.
Variable nf : bool.
Notation a := (mk_ra false nf None).
Lemma read_plain cv text l c c' l' :
  next_content w a (mk_rd (mk_in cv text :: l) false []) (before_read c) = Ok (true, mk_rd l' false [], c') ->
  try_read_next w a (mk_rd (mk_in cv text :: l) false []) c = Ok (true, mk_rd l' false [], after_read c').
Proof. intros E. unfold try_read_next. cbn [rd_inputs rd_img]. unfold read_content. rewrite E. reflexivity. Qed.
Lemma follow_none v l c : (forall nm, ct_stack c = [OName nm] -> w_xobject w v nm = None) -> exists nm, follow w a v l c = Ok (l, add_warn (set_name c nm) w_xobj).
Proof.
  intros H. unfold follow. assert (D : follow w a v l c = Ok (l, add_warn (set_name c (ct_name c)) w_xobj) \/ exists n, ct_stack c = [OName n]).
  { unfold follow. destruct (ct_stack c) as [|o [|o2 st]]; [left; destruct c; reflexivity| |left; destruct o; destruct c; reflexivity]. destruct o; try (left; destruct c; reflexivity). right. eexists. reflexivity. }
  destruct D as [D|[n E]]; [exists (ct_name c); exact D|]. rewrite E, (H n E). exists (Some n). reflexivity.
Qed.
Lemma main cv path is out : shows w nf cv path is out -> forall cvi text l c, program_text is text -> cv = option_map fst cvi -> path = objs (mk_in cvi text :: l) -> ct_dict c = [] ->
  exists tail c', steps w a (mk_rd (mk_in cvi text :: l) false []) c out (mk_rd (mk_in cvi tail :: l) false []) c' /\ blank tail /\ ct_dict c' = [].
Proof.
  induction 1 as [cv path|cv path args n k op is out In1 NM NB ND H IH|cv path args n is out NI H IH|cv path args op is out NX NM H IH|cv path nm x k is out X IN H IH|cv path nm x k is out X IN LF H IH|cv path nm x fis fout is out X IN NF PT HF IHF H IH|cv path d data is out H IH];
    intros cvi text l c T CV PA CD; inversion T as [ws B|args' n' t' t1 k' is' V W NB' T' EQ|es d' data' t' t1 t2 ch wh k' is' W1 SD PM V W2 C1 C2 NE EF T' EQ]; subst.
  - exists text, c. split; [constructor|]. split; [exact B|exact CD].
  - (* an operator *)
    pose proof (next_op w a cvi text l c args n k' t1 V W) as E. rewrite (op_name_of _ _ NM) in E. rewrite (check_count_iso n k op (set_read (before_read c) COperator (rev args) op n) args In1 NM eq_refl eq_refl) in E. cbn [bind] in E.
    assert (E' : next_content w a (mk_rd (mk_in cvi text :: l) false []) (before_read c) = Ok (true, mk_rd (mk_in cvi k' :: l) false [], set_warn (set_read (before_read c) COperator (rev args) op n) (count_warning k args))).
    { destruct (op =? op_Do) eqn:ED.
      - apply Z.eqb_eq in ED. subst op. rewrite name_Do in NM. injection NM as <-. specialize (ND eq_refl). destruct cvi; [discriminate|]. exact E.
      - destruct (op =? op_BI) eqn:EB; [apply Z.eqb_eq in EB; subst op; rewrite name_BI in NM; injection NM as <-; contradiction|]. exact E. }
    apply read_plain in E'. match type of E' with _ = Ok (_, _, ?cc) => destruct (IH cvi k' l cc T' eq_refl eq_refl ltac:(reflexivity)) as (tail & c' & ST & BT & DT) end.
    exists tail, c'. split; [|split; assumption]. apply (st_cons _ _ _ _ _ _ _ _ _ E'). exact ST.
  - (* unknown *)
    pose proof (next_op w a cvi text l c args n k' t1 V W) as E. rewrite (op_of_unknown _ NI) in E. apply read_plain in E. match type of E with _ = Ok (_, _, ?cc) => destruct (IH cvi k' l cc T' eq_refl eq_refl ltac:(reflexivity)) as (tail & c' & ST & BT & DT) end.
    exists tail, c'. split; [|split; assumption]. apply (st_cons _ _ _ _ _ _ _ _ _ E). exact ST.
  - (* no XObject *)
    destruct cvi as [[cv0 o]|]; [|discriminate]. injection CV as ->. pose proof (op_name_of _ _ NM) as OE. rewrite of_Do in OE. injection OE as <-.
    pose proof (next_op w a (Some (cv0, o)) text l c args (bs "Do") k' t1 V W) as E. rewrite of_Do in E. rewrite (check_count_iso _ _ _ (set_read (before_read c) COperator (rev args) op_Do (bs "Do")) args in_Do NM eq_refl eq_refl) in E. cbn [bind] in E. change (op_Do =? op_Do) with true in E. cbv iota in E.
    edestruct (follow_none cv0) as [nm0 FE]; [|rewrite FE in E].
    { cbn [set_warn set_read ct_stack]. intros nm EN. apply NX. rewrite <- (rev_involutive args), EN. reflexivity. }
    cbn [bind] in E. apply read_plain in E. match type of E with _ = Ok (_, _, ?cc) => destruct (IH (Some (cv0, o)) k' l cc T' eq_refl eq_refl ltac:(reflexivity)) as (tail & c' & ST & BT & DT) end.
    exists tail, c'. split; [|split; assumption]. match type of E with _ = Ok (true, _, ?cc) => assert (EC : cc = shown COperator (count_warning (Some 1) args + w_xobj) args op_Do (bs "Do")) end.
    { unfold after_read, add_warn, set_name, set_warn, set_read, before_read. cbn [ct_type ct_warn ct_stack ct_op ct_kw]. rewrite warn_or. reflexivity. }
    rewrite EC in E. apply (st_cons _ _ _ _ _ _ _ _ _ E). rewrite EC in ST. exact ST.
  - (* called recursively *)
    destruct cvi as [[cv0 o]|]; [|discriminate]. injection CV as ->.
    pose proof (next_op w a (Some (cv0, o)) text l c [OName nm] (bs "Do") k' t1 V W) as E. rewrite of_Do in E. rewrite (check_count_iso _ _ _ (set_read (before_read c) COperator (rev [OName nm]) op_Do (bs "Do")) [OName nm] in_Do name_Do eq_refl eq_refl) in E. cbn [bind] in E. change (op_Do =? op_Do) with true in E. cbv iota in E.
    unfold follow in E. cbn [set_warn set_read ct_stack rev app] in E. rewrite X in E. rewrite (recursively_yes (mk_in (Some (cv0, o)) k' :: l) x IN) in E. cbn [bind] in E. apply read_plain in E.
    match type of E with _ = Ok (_, _, ?cc) => destruct (IH (Some (cv0, o)) k' l cc T' eq_refl eq_refl ltac:(reflexivity)) as (tail & c' & ST & BT & DT) end. exists tail, c'. split; [|split; assumption]. apply (st_cons _ _ _ _ _ _ _ _ _ E). exact ST.
  - (* an XObject not followed *)
    destruct cvi as [[cv0 o]|]; [|discriminate]. injection CV as ->.
    pose proof (next_op w a (Some (cv0, o)) text l c [OName nm] (bs "Do") k' t1 V W) as E. rewrite of_Do in E. rewrite (check_count_iso _ _ _ (set_read (before_read c) COperator (rev [OName nm]) op_Do (bs "Do")) [OName nm] in_Do name_Do eq_refl eq_refl) in E. cbn [bind] in E. change (op_Do =? op_Do) with true in E. cbv iota in E.
    unfold follow in E. cbn [set_warn set_read ct_stack rev app] in E. rewrite X in E. rewrite (recursively_no (mk_in (Some (cv0, o)) k' :: l) x IN) in E.
    assert (E' : next_content w a (mk_rd (mk_in (Some (cv0, o)) text :: l) false []) (before_read c) = Ok (true, mk_rd (mk_in (Some (cv0, o)) k' :: l) false [], set_xobj (set_type (set_name (set_warn (set_read (before_read c) COperator (rev [OName nm]) op_Do (bs "Do")) 0) (Some nm)) CDoXObject) (Some (x, k)))).
    { rewrite E. destruct k; [destruct LF as [LF|LF]; [congruence|]; cbn [ra_nofollow]; rewrite LF; reflexivity|reflexivity|reflexivity]. }
    clear E. apply read_plain in E'. match type of E' with _ = Ok (_, _, ?cc) => destruct (IH (Some (cv0, o)) k' l cc T' eq_refl eq_refl ltac:(reflexivity)) as (tail & c' & ST & BT & DT) end. exists tail, c'. split; [|split; assumption]. apply (st_cons _ _ _ _ _ _ _ _ _ E'). exact ST.
  - (* a form *)
    destruct cvi as [[cv0 o]|]; [|discriminate]. injection CV as ->.
    pose proof (next_op w a (Some (cv0, o)) text l c [OName nm] (bs "Do") k' t1 V W) as E. rewrite of_Do in E. rewrite (check_count_iso _ _ _ (set_read (before_read c) COperator (rev [OName nm]) op_Do (bs "Do")) [OName nm] in_Do name_Do eq_refl eq_refl) in E. cbn [bind] in E. change (op_Do =? op_Do) with true in E. cbv iota in E.
    unfold follow in E. cbn [set_warn set_read ct_stack rev app] in E. rewrite X in E. rewrite (recursively_no (mk_in (Some (cv0, o)) k' :: l) x IN) in E. cbn [ra_nofollow] in E. match type of E with context [if nf then ?x else ?y] => replace (if nf then x else y) with y in E by (rewrite (not_true_is_false _ NF); reflexivity) end. rewrite all_joined in E. cbn [bind] in E. apply read_plain in E.
    destruct (IHF (Some (x, x)) (joined (texts (w_text w x))) (mk_in (Some (cv0, o)) k' :: l) (do_shown 0 nm x XForm) PT eq_refl eq_refl eq_refl) as (tail1 & c1 & ST1 & BT1 & DT1).
    assert (E2 : try_read_next w a (mk_rd (mk_in (Some (x, x)) tail1 :: mk_in (Some (cv0, o)) k' :: l) false []) c1 = Ok (true, mk_rd (mk_in (Some (cv0, o)) k' :: l) false [], shown CEndForm 0 [] 0 [])).
    { unfold try_read_next. cbn [rd_inputs rd_img]. unfold read_content, next_content. cbn [rd_inputs in_dev rd_q]. rewrite operands_end by exact BT1. reflexivity. }
    destruct (IH (Some (cv0, o)) k' l (shown CEndForm 0 [] 0 []) T' eq_refl eq_refl eq_refl) as (tail & c' & ST & BT & DT). exists tail, c'. split; [|split; assumption].
    refine (st_cons _ _ _ _ _ _ _ _ _ E _). apply (steps_app _ _ _ _ _ _ _ _ _ _ ST1). apply (st_cons _ _ _ _ _ _ _ _ _ E2). exact ST.
  - (* an image *)
    pose proof (next_op w a cvi text l c [] (bs "BI") t1 text (vt_nil text) W1) as E. rewrite of_BI in E. rewrite (check_count_iso _ _ _ (set_read (before_read c) COperator (rev []) op_BI (bs "BI")) [] in_BI name_BI eq_refl eq_refl) in E. cbn [bind] in E. change (op_BI =? op_Do) with false in E. change (op_BI =? op_BI) with true in E. cbv iota in E.
    rewrite (image_dict_reads es t1 t2 _ _ (mk_tst [] t1) (S (length t1 + 0)) V W2 Logic.I ltac:(constructor) ltac:(unfold mu; cbn [tin tq length]; lia)) in E. cbn [bind tin tq] in E.
    assert (E' : try_read_next w a (mk_rd (mk_in cvi text :: l) false []) c = Ok (true, mk_rd (mk_in cvi (ch :: data ++ 69 :: 73 :: wh :: k') :: l) true [], mk_ct CImageDict 0 [] 0 [] d [] None None)).
    { unfold try_read_next. cbn [rd_inputs rd_img]. unfold read_content. rewrite E. cbn [bind handle_content handle_warnings ra_throw]. cbn [set_warn set_read before_read ct_dict rev set_type set_dict]. rewrite CD, (add_all_sorted es d SD PM). reflexivity. }
    assert (E2 : try_read_next w a (mk_rd (mk_in cvi (ch :: data ++ 69 :: 73 :: wh :: k') :: l) true []) (mk_ct CImageDict 0 [] 0 [] d [] None None) = Ok (true, mk_rd (mk_in cvi k' :: l) false [], mk_ct CImageData 0 [] 0 [] [] data None None)).
    { unfold try_read_next. cbn [rd_inputs rd_img ra_handler in_dev]. rewrite data_reads by assumption. reflexivity. }
    destruct (IH cvi k' l (mk_ct CImageData 0 [] 0 [] [] data None None) T' eq_refl eq_refl eq_refl) as (tail & c' & ST & BT & DT). exists tail, c'. split; [|split; assumption].
    apply (st_cons _ _ _ _ _ _ _ _ _ E'). apply (st_cons _ _ _ _ _ _ _ _ _ E2). exact ST.
Qed.
Lemma reads_program cvi is text out : program_text is text -> shows w nf (option_map fst cvi) (match cvi with Some (_, o) => [o] | None => [] end) is out ->
  forall fuel, (length out < fuel)%nat -> read_all fuel w a (mk_rd [mk_in cvi text] false []) new_content = Ok out.
Proof.
  intros T H fuel F. destruct (main _ _ _ _ H cvi text [] new_content T eq_refl) as (tail & c' & ST & BT & DT); [cbn [objs flat_map in_canvas]; rewrite app_nil_r; destruct cvi as [[v o]|]; reflexivity|reflexivity|].
  eapply (steps_all _ _ _ _ _ _ _ _ _ ST); [|exact F]. unfold try_read_next. cbn [rd_inputs rd_img]. unfold read_content, next_content. cbn [rd_inputs in_dev rd_q]. rewrite operands_end by exact BT. reflexivity.
Qed.
End Shows.
