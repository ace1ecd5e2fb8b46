(** Lemmas about whole saves *)
From Coq Require Import String.
From Verif Require Import Base TokModel WriteModel DictProofs TokProofs LexProofs ChainProofs ObjSpec ObjProofs ParseProofs ObjPropLemmas UtilModel ListModel ListProofs XrefModel XrefSpec XrefProofs XrefReadProofs XrefPropLemmas ParserModel ParserSpec ParserProofs ParserPropLemmas UpdateModel UpdateSpec UpdateProofs.
Local Open Scope Z_scope.
Local Notation dict := (list (list Z * obj)) (only parsing).

(** ** The trailer *)
Lemma name_okb_ok n : name_okb n = true -> name_ok 4095 n.
Proof. apply name_ok_b. Qed.
Definition pairs_good (d : dict) : Prop := Forall (fun p => name_ok 4095 (fst p) /\ wf_obj default_params (snd p) /\ (inner (snd p) <= 1)%nat) d.
Lemma add_good k v d : pairs_good d -> name_ok 4095 k -> wf_obj default_params v -> (inner v <= 1)%nat -> pairs_good (dict_add k v d).
Proof.
  intros D N W I. assert (H : name_ok 4095 (fst (k, v)) /\ wf_obj default_params (snd (k, v)) /\ (inner (snd (k, v)) <= 1)%nat) by (split; [exact N|split; [exact W|exact I]]).
  unfold pairs_good in *. clear N W I. induction D as [|[k2 v2] d H2 D IH]; cbn [dict_add]; [apply Forall_cons; [exact H|apply Forall_nil]|].
  destruct (beq k k2) eqn:E.
  - apply beq_eq in E. subst k2. apply Forall_cons; [exact H|exact D].
  - destruct (bytes_lt k k2); [apply Forall_cons; [exact H|apply Forall_cons; [exact H2|exact D]]|apply Forall_cons; [exact H2|exact IH]].
Qed.
Lemma good_wf d : DictProofs.sorted d -> pairs_good d -> wf_obj default_params (ODict d) /\ (inner (ODict d) <= 1)%nat.
Proof.
  intros S0 D. split.
  - split; [exact S0|]. clear S0. induction D as [|[k v] d (A & B & C) D IH]; [exact I|]. split; [split; assumption|exact IH].
  - clear S0. induction D as [|[k v] d (A & B & C) D IH]; [cbn; lia|]. cbn [inner] in *. cbn [snd] in C. lia.
Qed.
Lemma trailer_good old size prev id : trailer_parts old prev id -> 0 <= size < 2 ^ 63 ->
  wf_obj default_params (ODict (fill_trailer old size prev id)) /\ (inner (ODict (fill_trailer old size prev id)) <= 1)%nat.
Proof.
  intros (RI & ID & PV) SZ. apply good_wf; [apply fill_trailer_facts|]. unfold fill_trailer.
  assert (NUM : forall n, 0 <= n < 2 ^ 63 -> wf_obj default_params (ONum n)) by (intros n N; cbn; unfold int64_ok; lia).
  assert (D0 : pairs_good (dict_add (bs "Size") (ONum size) [])).
  { apply add_good; [constructor|apply name_okb_ok; vm_compute; reflexivity|apply NUM; exact SZ|cbn; lia]. }
  assert (CK : forall k d, In k [bs "Root"; bs "Info"] -> pairs_good d -> pairs_good (copy_key old k d)).
  { intros k d K D. unfold copy_key. destruct (dict_get k old) as [v|] eqn:G; [|exact D]. destruct (RI k v K G) as (n & g & -> & N & G').
    apply add_good; [exact D| |cbn; auto|cbn; lia]. destruct K as [<- | [<- | []]]; apply name_okb_ok; vm_compute; reflexivity. }
  assert (D1 : pairs_good (dict_add (bs "ID") (OArr id) (copy_key old (bs "Info") (copy_key old (bs "Root") (dict_add (bs "Size") (ONum size) []))))).
  { apply add_good; [apply CK; [right; left; easy|apply CK; [left; easy|exact D0]]|apply name_okb_ok; vm_compute; reflexivity| |].
    - clear - ID. cbn [wf_obj]. induction id as [|v id IH]; [exact I|]. split; [destruct (ID v (or_introl eq_refl)) as (h & s & -> & B); exact B|]. apply IH. intros; apply ID; right; assumption.
    - clear - ID. cbn [inner]. induction id as [|v id IH]; [lia|]. destruct (ID v (or_introl eq_refl)) as (h & s & -> & B). cbn [inner].
      assert (forall v, In v id -> exists h s, v = OStr h s /\ bytes_ok s) by (intros; apply ID; right; assumption). specialize (IH H). lia. }
  destruct (0 <? prev); [|exact D1]. apply add_good; [exact D1|apply name_okb_ok; vm_compute; reflexivity|apply NUM; exact PV|cbn; lia].
Qed.

(** ** The number of subsections *)
Lemma firsts_asc : forall secs lo, well_formed lo secs -> NoDup (map (fun s : section => fst (fst s)) secs) /\ (forall f, In f (map (fun s : section => fst (fst s)) secs) -> lo <= f).
Proof.
  induction secs as [|[[f c] es] secs IH]; intros lo W; [split; [constructor|intros ? []]|]. cbn [well_formed map fst] in *. destruct W as (W1 & W2 & W3 & W4).
  destruct (IH _ W4) as [N L]. split.
  - constructor; [|exact N]. intros I. specialize (L _ I). lia.
  - intros g [<- | I]; [lia|]. specialize (L _ I). lia.
Qed.
Lemma firsts_listed : forall secs lo, well_formed lo secs -> forall f, In f (map (fun s : section => fst (fst s)) secs) -> exists e, lists secs f e.
Proof.
  intros secs lo W f I. apply in_map_iff in I. destruct I as ([[f' c] es] & <- & I). cbn [fst].
  assert (P : 0 < c /\ c = Z.of_nat (length es)).
  { revert lo W. induction secs as [|[[f2 c2] es2] secs IH]; intros lo W; [destruct I|]. cbn [well_formed] in W. destruct W as (W1 & W2 & W3 & W4). destruct I as [E | I]; [injection E as -> -> ->; easy|exact (IH I _ W4)]. }
  destruct (nth_error (map snd es) 0) as [e|] eqn:N; [|apply nth_error_None in N; rewrite map_length in N; lia].
  exists e. exists f', c, es. split; [exact I|]. split; [lia|]. split; [lia|]. rewrite Z.sub_diag. exact N.
Qed.
Lemma due_changed fl tight inc pos objs frees body adds n e : put_objects fl tight inc pos objs = Ok (body, adds) ->
  due (all_adds adds frees) n e -> In n (changed inc objs frees).
Proof.
  intros PO D. destruct (put_facts fl tight inc objs _ _ _ PO) as (A1 & A2 & A3 & A4 & A5). unfold changed. apply in_or_app.
  destruct e as [m g | off g]; cbn [due] in D.
  - destruct D as [D _]. apply in_app_or in D. destruct D as [D | D]; [destruct (A5 _ D)|]. right. apply in_map_iff in D. destruct D as (r & E & I). injection E as ->. apply in_map_iff. exists (n, g). easy.
  - apply in_app_or in D. destruct D as [D | D].
    + left. destruct (A3 _ _ D) as (o & d & I & C & _). apply in_map_iff. exists ((n, g), o, d). split; [easy|]. apply filter_In. split; [exact I|]. cbn [snd]. destruct inc, d; easy.
    + apply in_map_iff in D. destruct D as (r & E & I). discriminate.
Qed.
Lemma changed_due fl tight inc pos objs frees body adds n : put_objects fl tight inc pos objs = Ok (body, adds) ->
  In n (changed inc objs frees) -> (exists g off, added_used (all_adds adds frees) n g off) \/ (exists g, added_free (all_adds adds frees) n g).
Proof.
  intros PO D. destruct (put_facts fl tight inc objs _ _ _ PO) as (A1 & A2 & A3 & A4 & A5). unfold changed in D. apply in_app_or in D. destruct D as [D | D].
  - apply in_map_iff in D. destruct D as ([[[n' g] o] d] & E & I). cbn [fst] in E. subst n'. apply filter_In in I. destruct I as [I C]. cbn [snd] in C.
    destruct (A2 _ _ _ I ltac:(destruct inc, d; easy)) as (t & b1 & b2 & _ & _ & J). left. exists g. eexists. apply in_or_app. left. exact J.
  - apply in_map_iff in D. destruct D as ([n' g] & E & I). cbn [fst] in E. subst n'. right. exists g. apply in_or_app. right. apply in_map_iff. exists (n, g). easy.
Qed.
Lemma few_sections fl tight inc pos objs frees body adds secs : put_objects fl tight inc pos objs = Ok (body, adds) -> well_formed 0 secs ->
  (forall n x, 1 <= n -> (lists secs n x <-> due (all_adds adds frees) n x)) -> (length secs <= S (length (changed inc objs frees)))%nat.
Proof.
  intros PO W H. destruct (firsts_asc secs 0 W) as [ND LO]. rewrite <- (map_length (fun s : section => fst (fst s)) secs). change (S (length (changed inc objs frees))) with (length (0 :: changed inc objs frees)).
  apply NoDup_incl_length; [exact ND|]. intros f I. destruct (firsts_listed secs 0 W f I) as [e L]. specialize (LO f I). destruct (Z.eq_dec f 0) as [-> | N]; [left; easy|right].
  apply H in L; [|lia]. exact (due_changed fl tight inc pos objs frees body adds f e PO L).
Qed.

(** ** A save succeeds *)
Lemma size_bound adds : addable adds -> 0 <= xref_size (add_objects adds) < 2 ^ 63.
Proof.
  intros A. destruct (size_of_adds adds A) as (S1 & [E | I] & _); [lia|]. apply in_map_iff in I. destruct I as (x & E & I). destruct A as [_ A]. rewrite Forall_forall in A. specialize (A x I). cbv beta in A.
  unfold ref in *. lia.
Qed.
Lemma addable_adds fl tight inc pos objs frees body adds : saveable objs frees -> put_objects fl tight inc pos objs = Ok (body, adds) -> addable (all_adds adds frees).
Proof.
  intros (ND & OO & FF) PO. destruct (put_facts fl tight inc objs _ _ _ PO) as (A1 & _). split.
  - unfold all_adds. rewrite map_app, map_map. cbn [fst].
    assert (MA : map (fun x : ref * xadd => fst (fst x)) adds = map (fun x : wobj => fst (fst (fst x))) objs)
      by (rewrite <- (map_map (fun x : wobj => fst (fst x)) fst), <- A1, map_map; easy).
    unfold ref in MA at 1. change (NoDup (map (fun x : ref * xadd => fst (fst x)) adds ++ map fst frees)). unfold ref at 1. rewrite MA. exact ND.
  - apply Forall_forall. intros y I. cbv beta. apply in_app_or in I. destruct I as [I | I].
    + assert (J : In (fst y) (map fst adds)) by (apply in_map; exact I). rewrite A1 in J. clear I. rename J into I. apply in_map_iff in I. destruct I as ([[r o] d] & E & I). cbn [fst] in E. rewrite <- E. destruct (OO r o d I) as (B1 & _). lia.
    + apply in_map_iff in I. destruct I as (r & <- & I). destruct (FF r I) as (B1 & _). cbn [fst]. lia.
Qed.
Lemma save_total fl tight inc file objs frees old prev id : saveable objs frees -> trailer_parts old prev id -> (inc = true \/ objs <> [] \/ frees <> []) ->
  exists F, save fl tight inc file objs frees old prev id = Ok F.
Proof.
  intros SV TP NE. destruct (put_total fl tight inc objs (Z.of_nat (length file))) as (body & adds & PO); [intros r o d I; destruct SV as (_ & OO & _); apply (OO r o d I)|].
  pose proof (addable_adds fl tight inc _ objs frees body adds SV PO) as AD.
  assert (SO : inc = true \/ something (all_adds adds frees)).
  { destruct (put_facts fl tight inc objs _ _ _ PO) as (A1 & A2 & _). destruct inc; [left; easy|right]. destruct NE as [NE | [NE | NE]]; [discriminate| |].
    - destruct objs as [|[[[n g] o] d] objs]; [easy|]. destruct (A2 _ o d (or_introl eq_refl) eq_refl) as (t0 & b1 & b2 & _ & _ & I).
      exists n, g. left. eexists. apply in_or_app. left. exact I.
    - destruct frees as [|[n g] frees]; [easy|]. exists n, g. right. apply in_or_app. right. left. easy. }
  destruct (sections_of_adds (all_adds adds frees) inc AD SO) as (secs & XS & _).
  destruct (trailer_good old (xref_size (add_objects (all_adds adds frees))) prev id TP (size_bound _ AD)) as [WF _].
  destruct (write_total default_params fl _ WF) as [t WT]. unfold save. rewrite PO. cbn [bind fst snd]. fold (all_adds adds frees). rewrite XS. cbn [bind]. rewrite WT. eexists. reflexivity.
Qed.

(** ** What is read after a save *)
Lemma written_found file off r o u : written file off r o -> load_object (file ++ u) off = Ok (r, o, false).
Proof.
  intros (fl & tight & text & k & [FL TG] & OT & SK & OF & N & G & W & D). destruct r as [n g].
  apply (load_text fl tight n g o text (file ++ u) off (k ++ u)); auto. rewrite skipn_app. replace (Z.to_nat off - length file)%nat with O by lia. rewrite SK, <- app_assoc. easy.
Qed.
Lemma closed_more all all' l : (forall x, In x all -> In x all') -> closed all l -> closed all' l.
Proof.
  intros IN. induction l as [|x l IH]; [easy|]. cbn [closed]. destruct l as [|y l].
  - intros [A | (A & y & B & C)]; [left; exact A|right; eauto 6].
  - intros (A & B & C). auto.
Qed.
Lemma newest_new E l n r : forall x, newest E (x :: l) n r <-> ((exists e, lists (csecs x) n e /\ r = as_read (pmagic E) e) \/ ((forall e, ~ lists (csecs x) n e) /\ newest E l n r)).
Proof. intros x. reflexivity. Qed.
Lemma free_listed (inc : bool) adds secs n g : addable adds -> xref_sections (if inc then first_empty (add_objects adds) else add_objects adds) = Ok secs ->
  added_free adds n g -> exists m, lists secs n (XFree m g).
Proof.
  intros AD XS A. destruct (table_lists adds inc AD ltac:(right; exists n, g; right; exact A)) as (secs' & XS' & _ & _ & FR & _). rewrite XS in XS'. apply ok_inj in XS'. subst secs'. exact (FR n g A).
Qed.
Lemma after_save fl tight inc file objs frees old prev id v l stm stm' F : options_ok fl tight -> saveable objs frees -> trailer_parts old prev id ->
  (inc = true \/ objs <> [] \/ frees <> []) -> has_header file v -> (length (changed inc objs frees) < 511)%nat ->
  let E := mk_penv file false 0 (at_least_13 (get_version v)) stm in
  Forall (present E) l -> NoDup (map coff l) -> (l = [] /\ prev = 0 \/ exists x l', l = x :: l' /\ prev = coff x /\ 0 < coff x /\ closed l l) ->
  (forall y, In y l -> 2 * S (length l) + cneed y <= 256)%nat -> (length l <= 126)%nat ->
  (forall y d, In y l -> stm' d (coff y) = stm d (coff y)) ->
  save fl tight inc file objs frees old prev id = Ok F -> Z.of_nat (length F) < 10 ^ 10 ->
  exists body adds rest st t, put_objects fl tight inc (Z.of_nat (length file)) objs = Ok (body, adds) /\ F = file ++ body ++ rest /\ addable (all_adds adds frees) /\
    parse_file false F stm' new_parser = (Ok tt, st) /\ trail st = Some t /\
    dict_get (bs "Size") t = Some (ONum (xref_size (add_objects (all_adds adds frees)))) /\ dict_get (bs "ID") t = Some (OArr id) /\
    (forall k, In k [bs "Root"; bs "Info"] -> dict_get k t = match dict_get k old with Some w => Some w | None => newest_key k l end) /\
    (forall n r, 1 <= n -> (look (ents st) n = Some r <->
       ((exists e, due (all_adds adds frees) n e /\ r = as_read 0 e) \/ (~ In n (changed inc objs frees) /\ newest E l n r)))) /\
    (forall r, look (ents st) 0 = Some r -> (exists m, r = RFree m 65535) \/ newest E l 0 r).
Proof.
  intros OK SV TP NE HD CH E PR ND LK DP LN ST SAVE LF.
  assert (NF : file <> []) by (destruct HD as (_ & r & ->); discriminate).
  destruct (save_section fl tight inc file objs frees old prev id F OK SV NE SAVE LF NF) as (body & adds & secs & PO & XS & AD & W & H1 & H0 & LM & P).
  cbv zeta in P. set (tr := fill_trailer old (xref_size (add_objects (all_adds adds frees))) prev id) in *.
  set (new := mk_csec (Z.of_nat (length file) + Z.of_nat (length body)) tr secs false) in *. destruct P as ([rest FE] & HE & PN).
  destruct (trailer_good old (xref_size (add_objects (all_adds adds frees))) prev id TP (size_bound _ AD)) as [WF IN]. fold tr in WF, IN.
  pose proof (few_sections fl tight inc _ objs frees body adds secs PO W H1) as FS.
  specialize (PN WF ltac:(lia) false (at_least_13 (get_version v)) stm'). set (E' := mk_penv F false 0 (at_least_13 (get_version v)) stm') in *.
  assert (HD' : has_header F v) by (destruct HD as (V & r & ->); split; [exact V|]; exists (r ++ body ++ rest); rewrite FE, <- !app_assoc; easy).
  assert (PR' : Forall (present E') (new :: l)).
  { constructor; [exact PN|]. apply Forall_forall. intros y Y. rewrite Forall_forall in PR. unfold E'. rewrite FE.
    exact (present_more E y (body ++ rest) false stm' (PR y Y) eq_refl (fun d => ST y d Y)). }
  assert (ND' : NoDup (map coff (new :: l))).
  { cbn [map]. constructor; [|exact ND]. intros I. apply in_map_iff in I. destruct I as (y & EQ & Y). rewrite Forall_forall in PR.
    pose proof (present_inside E y (PR y Y)) as B. change (pfile E) with file in B. unfold new in EQ. cbn [coff] in EQ. lia. }
  destruct (fill_trailer_facts old (xref_size (add_objects (all_adds adds frees))) prev id) as (T0 & TS & TI & TR & TN & TP' & TX & TE). fold tr in T0, TS, TI, TR, TN, TP', TX, TE.
  assert (CL : closed (new :: l) (new :: l)).
  { destruct LK as [[-> ->] | (x & l' & -> & -> & P0 & C)].
    - left. exact TP'.
    - split; [|split; [exact P0|]]; [change (cdict new) with tr; rewrite TP'; replace (0 <? coff x) with true by lia; easy|].
      apply (closed_more (x :: l')); [intros z; right; assumption|exact C]. }
  assert (DP' : forall y, In y (new :: l) -> (2 * length (new :: l) + cneed y <= 256)%nat).
  { intros y [<- | Y]; [|exact (DP y Y)]. unfold cneed. change (cdict new) with tr. cbn [length]. lia. }
  assert (SZ : exists n, newest_key (bs "Size") (new :: l) = Some (ONum n)) by (eexists; cbn [newest_key]; change (cdict new) with tr; rewrite TS; reflexivity).
  assert (FL : Z.of_nat (length F) < 2 ^ 63) by lia.
  destruct (file_newest false F stm' v new l HD' HE FL PR' CL ND' DP' SZ) as (st & t & PF & LKP & T & K1 & K2). fold E' in LKP.
  exists body, adds, rest, st, t. split; [exact PO|]. split; [exact FE|]. split; [exact AD|]. split; [exact PF|]. split; [exact T|].
  split; [rewrite K1 by (left; easy); cbn [newest_key]; change (cdict new) with tr; rewrite TS; easy|].
  split; [rewrite K1 by (do 4 right; left; easy); cbn [newest_key]; change (cdict new) with tr; rewrite TI; easy|].
  split; [|split].
  - intros k [<- | [<- | []]].
    + rewrite K1 by (do 1 right; left; easy). cbn [newest_key]. change (cdict new) with tr. rewrite TR. easy.
    + rewrite K1 by (do 3 right; left; easy). cbn [newest_key]. change (cdict new) with tr. rewrite TN. easy.
  - intros n r N. rewrite LKP by lia. rewrite newest_new. change (csecs new) with secs. change (pmagic E') with 0. split.
    + intros [(e & L & R) | [NO R]]; [left; exists e; split; [apply H1; [lia|exact L]|exact R]|right]. split.
      * intros I. destruct (changed_due fl tight inc _ objs frees body adds n PO I) as [(g & off & A) | (g & A)].
        -- apply (NO (XUsed off g)). apply H1; [lia|exact A].
        -- destruct (free_listed inc (all_adds adds frees) secs n g AD XS A) as [m L]. exact (NO _ L).
      * apply (newest_same E' E); [reflexivity|exact R].
    + intros [(e & D & R) | [NO R]]; [left; exists e; split; [apply H1; [lia|exact D]|exact R]|right]. split.
      * intros e L. apply NO. apply H1 in L; [|lia]. exact (due_changed fl tight inc _ objs frees body adds n e PO L).
      * apply (newest_same E' E); [reflexivity|exact R].
  - intros r L. apply LKP in L; [|lia]. rewrite newest_new in L. destruct L as [(e & L & ->) | [_ L]].
    + left. destruct (H0 e L) as [m ->]. exists m. reflexivity.
    + right. apply (newest_same E' E); [reflexivity|exact L].
Qed.
Lemma put_found fl tight inc file objs body adds rest r o d : options_ok fl tight ->
  put_objects fl tight inc (Z.of_nat (length file)) objs = Ok (body, adds) -> In (r, o, d) objs -> inc && negb d = false ->
  1 <= fst r < 8388607 -> 0 <= snd r < 2 ^ 16 -> wf_obj default_params o -> (S (inner o) <= 256)%nat ->
  exists off, 0 < off + 1 /\ Z.of_nat (length file) <= off /\ In (r, XInUse (Some off)) adds /\ load_object (file ++ body ++ rest) off = Ok (r, o, false).
Proof.
  intros [FL TG] PO I C N G W D. destruct (put_facts fl tight inc objs _ _ _ PO) as (_ & A2 & _). destruct (A2 r o d I C) as (t & b1 & b2 & OT & -> & J).
  exists (Z.of_nat (length file) + Z.of_nat (length b1)). split; [lia|]. split; [lia|]. split; [exact J|]. destruct r as [n g]. cbn [fst snd] in *.
  apply (load_text fl tight n g o t _ _ (b2 ++ rest) FL TG W D ltac:(lia) G OT).
  replace (Z.to_nat (Z.of_nat (length file) + Z.of_nat (length b1))) with (length (file ++ b1)) by (rewrite app_length; lia).
  replace (file ++ (b1 ++ t ++ b2) ++ rest) with ((file ++ b1) ++ t ++ b2 ++ rest) by (rewrite <- !app_assoc; easy).
  rewrite skipn_app, skipn_all, Nat.sub_diag. easy.
Qed.

Lemma updated_file fl tight file objs frees old id v x l stm stm' F : options_ok fl tight -> saveable objs frees -> trailer_parts old (coff x) id ->
  has_header file v -> (length (changed true objs frees) < 511)%nat ->
  let E := mk_penv file false 0 (at_least_13 (get_version v)) stm in
  Forall (present E) (x :: l) -> NoDup (map coff (x :: l)) -> closed (x :: l) (x :: l) -> 0 < coff x ->
  (forall y, In y (x :: l) -> 2 * S (length (x :: l)) + cneed y <= 256)%nat ->
  (forall y d, In y (x :: l) -> stm' d (coff y) = stm d (coff y)) ->
  save fl tight true file objs frees old (coff x) id = Ok F -> Z.of_nat (length F) < 10 ^ 10 ->
  exists st t, parse_file false F stm' new_parser = (Ok tt, st) /\ trail st = Some t /\
    (exists u, F = file ++ u) /\
    (forall r o, In (r, o, true) objs -> found F (ents st) r o) /\
    (forall r, In r frees -> exists m, look (ents st) (fst r) = Some (RFree m (snd r))) /\
    (forall n r, 1 <= n -> ~ In n (changed true objs frees) -> (look (ents st) n = Some r <-> newest E (x :: l) n r)) /\
    (forall n g off o, 1 <= n -> ~ In n (changed true objs frees) -> newest E (x :: l) n (RUsed off g) -> written file off (n, g) o ->
       found F (ents st) (n, g) o) /\
    (forall k, In k [bs "Root"; bs "Info"] -> dict_get k t = match dict_get k old with Some w => Some w | None => newest_key k (x :: l) end).
Proof.
  intros OK SV TP HD CH E PR ND CL C0 DP ST SAVE LF.
  assert (LN : (length (x :: l) <= 126)%nat) by (specialize (DP x (or_introl eq_refl)); unfold cneed in DP; lia).
  destruct (after_save fl tight true file objs frees old (coff x) id v (x :: l) stm stm' F OK SV TP (or_introl eq_refl) HD CH PR ND
    (or_intror (ex_intro _ x (ex_intro _ l (conj eq_refl (conj eq_refl (conj C0 CL)))))) DP LN ST SAVE LF) as (body & adds & rest & st & t & PO & FE & AD & PF & T & _ & _ & RI & LK & _).
  exists st, t. split; [exact PF|]. split; [exact T|]. split; [exists (body ++ rest); exact FE|].
  assert (UN : forall n r, 1 <= n -> ~ In n (changed true objs frees) -> (look (ents st) n = Some r <-> newest E (x :: l) n r)).
  { intros n r N NC. rewrite (LK n r N). split; [intros [(e & D & _) | [_ R]]; [|exact R]|intros R; right; split; assumption].
    exfalso. apply NC. exact (due_changed fl tight true _ objs frees body adds n e PO D). }
  destruct SV as (SD & OO & FF). split; [|split; [|split; [exact UN|split; [|exact RI]]]].
  - intros r o I. destruct (OO r o true I) as (B1 & B2 & B3 & B4). destruct (put_found fl tight true file objs body adds rest r o true OK PO I eq_refl B1 B2 B3 B4) as (off & _ & _ & J & LO).
    exists off. rewrite <- FE in LO. split; [|exact LO]. apply LK; [lia|]. left. exists (XUsed off (snd r)). split; [|cbn [as_read]; rewrite Z.add_0_r; easy].
    cbn [due]. unfold added_used, all_adds. apply in_or_app. left. destruct r; exact J.
  - intros r I. destruct (FF r I) as [B1 B2].
    assert (A : added_free (all_adds adds frees) (fst r) (snd r)) by (apply in_or_app; right; apply in_map_iff; exists r; split; [destruct r|]; easy).
    destruct (table_lists (all_adds adds frees) true AD (or_introl eq_refl)) as (secs & XS & _ & _ & FR & _). destruct (FR _ _ A) as [m L].
    destruct (sections_of_adds (all_adds adds frees) true AD (or_introl eq_refl)) as (secs' & XS' & _ & H1 & _). rewrite XS in XS'. apply ok_inj in XS'. subst secs'.
    exists m. apply LK; [lia|]. left. exists (XFree m (snd r)). split; [apply H1; [lia|exact L]|easy].
  - intros n g off o N NC NW WR. exists off. split; [apply UN; assumption|]. rewrite FE. apply written_found. exact WR.
Qed.

(** ** The list of objects *)
Lemma fill_live file : forall es i s, 0 <= i -> ListProofs.sorted (live s) -> (forall r v, In (r, v) (live s) -> fst r < i) ->
  (forall k off g, nth_error es k = Some (Some (RUsed off g)) -> 0 < off /\ 0 <= g < 2 ^ 16 /\ 1 <= i + Z.of_nat k) ->
  exists s', fill_objects false file i es s = Ok s' /\
    (forall r v, In (r, v) (live s') <->
       (In (r, v) (live s) \/ exists k off, nth_error es k = Some (Some (RUsed off (snd r))) /\ fst r = i + Z.of_nat k /\ v = loaded file off)).
Proof.
  induction es as [|e es IH]; intros i s I0 SO LT H.
  - exists s. split; [reflexivity|]. intros r v. split; [intros I; left; exact I|intros [I | (k & off & N & _)]; [exact I|destruct k; discriminate]].
  - cbn [fill_objects].
    assert (H' : forall k off g, nth_error es k = Some (Some (RUsed off g)) -> 0 < off /\ 0 <= g < 2 ^ 16 /\ 1 <= i + 1 + Z.of_nat k).
    { intros k off g N. destruct (H (S k) off g N) as (A & B & C). repeat split; try lia. }
    assert (K : forall s1, live s1 = live s -> exists s', fill_objects false file (i + 1) es s1 = Ok s' /\
      (forall r v, In (r, v) (live s') <-> (In (r, v) (live s) \/ exists k off, nth_error es k = Some (Some (RUsed off (snd r))) /\ fst r = i + 1 + Z.of_nat k /\ v = loaded file off))).
    { intros s1 L1. destruct (IH (i + 1) s1 ltac:(lia)) as (s' & F & R); [rewrite L1; exact SO|rewrite L1; intros r v I; specialize (LT r v I); lia|exact H'|].
      exists s'. split; [exact F|]. intros r v. rewrite R, L1. easy. }
    assert (SH : forall (e : option rent) r v, (forall off g, e <> Some (RUsed off g)) ->
      (exists k off, nth_error (e :: es) k = Some (Some (RUsed off (snd r))) /\ fst r = i + Z.of_nat k /\ v = loaded file off) <->
      (exists k off, nth_error es k = Some (Some (RUsed off (snd r))) /\ fst r = i + 1 + Z.of_nat k /\ v = loaded file off)).
    { intros e0 r v NE. split.
      - intros ([|k] & off & N & A & B); [injection N as ->; exfalso; exact (NE _ _ eq_refl)|]. exists k, off. split; [exact N|]. split; [lia|exact B].
      - intros (k & off & N & A & B). exists (S k), off. split; [exact N|]. split; [lia|exact B]. }
    assert (AF : forall r s, live (add_free r s) = live s) by (intros r s0; unfold add_free; destruct (existsb _ _); reflexivity).
    assert (SAF : forall r s, live (safe_add_free r s) = live s) by (intros r s0; unfold safe_add_free, try_add_free; destruct (_ <=? _); [reflexivity|apply AF]).
    destruct e as [[m g | off g | a b]|].
    + cbn [bind]. destruct (K (if i =? 0 then s else safe_add_free (i, u16 g) s)) as (s' & F & R); [destruct (i =? 0); [easy|apply SAF]|].
      exists s'. split; [exact F|]. intros r v. rewrite R, SH by discriminate. easy.
    + destruct (H O off g eq_refl) as (A & B & C). replace (0 <? off) with true by lia. replace (i =? 0) with false by lia. cbn [andb bind].
      assert (UG : u16 g = g) by (apply Z.mod_small; lia). rewrite UG.
      destruct (IH (i + 1) (push (i, g) (loaded file off) s) ltac:(lia)) as (s' & F & R).
      * apply put_sorted. exact SO.
      * intros r v J. cbn [push live] in J. apply put_in in J; [|exact SO]. destruct J as [J | [J _]]; [injection J as -> ->; cbn [fst]; lia|specialize (LT r v J); lia].
      * exact H'.
      * exists s'. split; [exact F|]. intros r v. rewrite R. cbn [push live]. rewrite (put_in (i, g) (loaded file off) (live s) (r, v) SO). split.
        -- intros [[J | [J _]] | (k & off' & N & D & V)].
           ++ injection J as -> ->. right. exists O, off. split; [easy|]. split; [cbn [fst]; lia|easy].
           ++ left. exact J.
           ++ right. exists (S k), off'. split; [exact N|]. split; [lia|exact V].
        -- intros [J | ([|k] & off' & N & D & V)].
           ++ left. right. split; [exact J|]. cbn [fst]. intros ->. specialize (LT _ _ J). cbn [fst] in LT. lia.
           ++ left. left. cbn in N. injection N as -> ->. rewrite V. f_equal. destruct r as [n g']. cbn [fst snd] in *. f_equal. lia.
           ++ right. exists k, off'. split; [exact N|]. split; [lia|exact V].
    + cbn [bind]. destruct (K s eq_refl) as (s' & F & R). exists s'. split; [exact F|]. intros r v. rewrite R, SH by discriminate. easy.
    + cbn [bind]. destruct (K (if i =? 0 then s else add_free (i, 1) s)) as (s' & F & R); [destruct (i =? 0); [easy|apply AF]|].
      exists s'. split; [exact F|]. intros r v. rewrite R, SH by discriminate. easy.
Qed.

Lemma saved_file fl tight objs frees old id v stm F : options_ok fl tight -> saveable objs frees -> trailer_parts old 0 id ->
  objs <> [] \/ frees <> [] -> In v pdf_versions -> (length objs + length frees < 511)%nat ->
  save fl tight false (header_text v) objs frees old 0 id = Ok F -> Z.of_nat (length F) < 10 ^ 10 ->
  exists st t s, parse_file false F stm new_parser = (Ok tt, st) /\ trail st = Some t /\
    (forall k, In k [bs "Root"; bs "Info"] -> dict_get k t = dict_get k old) /\ dict_get (bs "ID") t = Some (OArr id) /\
    (forall r o d, In (r, o, d) objs -> found F (ents st) r o) /\
    fill_objects false F 0 (ents st) empty_list = Ok s /\
    (forall r w, In (r, w) (live s) <-> exists o d, In (r, o, d) objs /\ w = (o, None)).
Proof.
  intros OK SV TP NE V LN SAVE LF.
  assert (HD : has_header (header_text v) v) by (split; [exact V|]; eexists; reflexivity).
  assert (CH : (length (changed false objs frees) < 511)%nat).
  { unfold changed. rewrite app_length, !map_length. assert (LE : (length (filter (fun x : wobj => negb false || snd x) objs) <= length objs)%nat) by (generalize (fun x : wobj => negb false || snd x); clear; intros f; induction objs as [|y ys IH]; [easy|cbn; destruct (f y); cbn; lia]). exact (Nat.le_lt_trans _ _ _ (Nat.add_le_mono _ _ _ _ LE (le_n _)) LN). }
  destruct (after_save fl tight false (header_text v) objs frees old 0 id v [] stm stm F OK SV TP (or_intror NE) HD CH (Forall_nil _) (NoDup_nil _)
    (or_introl (conj eq_refl eq_refl)) ltac:(intros y []) ltac:(cbn; lia) ltac:(intros y d []) SAVE LF) as (body & adds & rest & st & t & PO & FE & AD & PF & T & _ & TI & RI & LK & L0).
  set (E := mk_penv (header_text v) false 0 (at_least_13 (get_version v)) stm) in *.
  assert (FO : forall r o d, In (r, o, d) objs -> exists off, 0 < off /\ look (ents st) (fst r) = Some (RUsed off (snd r)) /\ load_object F off = Ok (r, o, false)).
  { intros r o d I. destruct SV as (_ & OO & _). destruct (OO r o d I) as (B1 & B2 & B3 & B4).
    destruct (put_found fl tight false (header_text v) objs body adds rest r o d OK PO I eq_refl B1 B2 B3 B4) as (off & _ & OF & J & LO).
    exists off. rewrite <- FE in LO. split; [change (length (header_text v)) with (12 + length v)%nat in OF || (unfold header_text in OF; rewrite !app_length in OF; cbn [length] in OF); lia|]. split; [|exact LO].
    apply LK; [lia|]. left. exists (XUsed off (snd r)). split; [|cbn [as_read]; rewrite Z.add_0_r; easy]. apply in_or_app. left. destruct r; exact J. }
  assert (US : forall k off g, nth_error (ents st) k = Some (Some (RUsed off g)) -> 1 <= Z.of_nat k /\ exists o d, In ((Z.of_nat k, g), o, d) objs).
  { intros k off g N. assert (LK' : look (ents st) (Z.of_nat k) = Some (RUsed off g)) by (unfold look; rewrite Nat2Z.id, N; easy).
    destruct (Nat.eq_dec k 0) as [-> | K0].
    - apply L0 in LK'. destruct LK' as [[m M] | []]. discriminate.
    - split; [lia|]. apply LK in LK'; [|lia]. destruct LK' as [(e & D & EQ) | [_ []]]. destruct e as [m g' | off' g']; cbn [as_read] in EQ; [discriminate|]. injection EQ as EQ <-.
      cbn [due] in D. apply in_app_or in D. destruct D as [D | D]; [|apply in_map_iff in D; destruct D as (? & ? & _); discriminate].
      destruct (put_facts fl tight false objs _ _ _ PO) as (_ & _ & A3 & _). destruct (A3 _ _ D) as (o & d & I & _). eauto. }
  assert (UN : forall r o d o' d', In (r, o, d) objs -> In (r, o', d') objs -> o = o').
  { intros r o d o' d' I I'. destruct (FO r o d I) as (off & _ & A & B). destruct (FO r o' d' I') as (off' & _ & A' & B'). rewrite A in A'. injection A' as <-. rewrite B in B'. apply ok_inj in B'. injection B' as <-. easy. }
  assert (BND : forall k off g, nth_error (ents st) k = Some (Some (RUsed off g)) -> 0 < off /\ 0 <= g < 2 ^ 16 /\ 1 <= 0 + Z.of_nat k).
  { intros k off g N. destruct (US k off g N) as (K1 & o & d & I). destruct (FO _ _ _ I) as (off' & P & A & _). cbn [fst snd] in A. unfold look in A. rewrite Nat2Z.id, N in A. injection A as ->.
    destruct SV as (_ & OO & _). destruct (OO _ _ _ I) as (_ & B2 & _). cbn [snd] in B2. repeat split; lia. }
  destruct (fill_live F (ents st) 0 empty_list ltac:(lia) ltac:(constructor) ltac:(intros r v0 []) BND) as (s & FI & R).
  exists st, t, s. split; [exact PF|]. split; [exact T|]. split; [intros k K; rewrite (RI k K); destruct (dict_get k old); easy|]. split; [exact TI|].
  split; [intros r o d I; destruct (FO r o d I) as (off & _ & A & B); exists off; easy|]. split; [exact FI|].
  intros r w. rewrite R. split.
  - intros [[] | (k & off & N & K & ->)]. destruct (US k off (snd r) N) as (K1 & o & d & I). exists o, d. rewrite Z.add_0_l in K. rewrite <- K in I.
    assert (ER : (fst r, snd r) = r) by (destruct r; easy). rewrite ER in I. split; [exact I|]. destruct (FO _ _ _ I) as (off' & _ & A & B). unfold look in A. rewrite K, Nat2Z.id, N in A. injection A as <-. unfold loaded. rewrite B. easy.
  - intros (o & d & I & ->). right. destruct (FO _ _ _ I) as (off & P & A & B). unfold look in A. destruct (nth_error (ents st) (Z.to_nat (fst r))) as [[e|]|] eqn:N; try discriminate. injection A as ->.
    exists (Z.to_nat (fst r)), off. split; [exact N|]. destruct SV as (_ & OO & _). destruct (OO _ _ _ I) as (B1 & _). split; [lia|]. unfold loaded. rewrite B. easy.
Qed.

(** ** Histories *)
Lemma save_chain fl tight inc file objs frees old prev id v l stm F : options_ok fl tight -> edit_ok (inc, objs, frees) -> trailer_parts old prev id ->
  has_header file v -> let E := mk_penv file false 0 (at_least_13 (get_version v)) stm in
  Forall (present E) l -> NoDup (map coff l) -> (l = [] /\ prev = 0 \/ exists x l', l = x :: l' /\ prev = coff x /\ 0 < coff x /\ closed l l) ->
  save fl tight inc file objs frees old prev id = Ok F -> Z.of_nat (length F) < 10 ^ 10 ->
  let E' := mk_penv F false 0 (at_least_13 (get_version v)) stm in
  exists new u, F = file ++ u /\ has_header F v /\ has_end false F (coff new) /\ Forall (present E') (new :: l) /\ NoDup (map coff (new :: l)) /\ closed (new :: l) (new :: l) /\
    0 < coff new /\ (cneed new <= 2)%nat /\ (exists n, dict_get (bs "Size") (cdict new) = Some (ONum n)) /\
    (forall r o d, In (r, o, d) objs -> inc = false \/ d = true -> exists off, lists (csecs new) (fst r) (XUsed off (snd r)) /\ written F off r o) /\
    (forall r, In r frees -> exists m, lists (csecs new) (fst r) (XFree m (snd r))) /\
    (forall n e, 1 <= n -> lists (csecs new) n e -> In n (changed inc objs frees)).
Proof.
  intros OK (SV & NE & CH) TP HD E PR ND LK SAVE LF E'.
  assert (NF : file <> []) by (destruct HD as (_ & r & ->); discriminate).
  destruct (save_section fl tight inc file objs frees old prev id F OK SV NE SAVE LF NF) as (body & adds & secs & PO & XS & AD & W & H1 & H0 & LM & P).
  cbv zeta in P. set (tr := fill_trailer old (xref_size (add_objects (all_adds adds frees))) prev id) in *.
  set (new := mk_csec (Z.of_nat (length file) + Z.of_nat (length body)) tr secs false) in *. destruct P as ([rest FE] & HE & PN).
  destruct (trailer_good old (xref_size (add_objects (all_adds adds frees))) prev id TP (size_bound _ AD)) as [WF IN]. fold tr in WF, IN.
  pose proof (few_sections fl tight inc _ objs frees body adds secs PO W H1) as FS.
  specialize (PN WF ltac:(lia) false (at_least_13 (get_version v)) stm). fold E' in PN.
  destruct (fill_trailer_facts old (xref_size (add_objects (all_adds adds frees))) prev id) as (T0 & TS & TI & TR & TN & TP' & TX & TE). fold tr in T0, TS, TI, TR, TN, TP', TX, TE.
  exists new, (body ++ rest). split; [exact FE|].
  split; [destruct HD as (V & r & ->); split; [exact V|]; exists (r ++ body ++ rest); rewrite FE, <- !app_assoc; easy|].
  split; [exact HE|]. split; [|split; [|split; [|split; [|split; [|split; [|split; [|split]]]]]]].
  - constructor; [exact PN|]. apply Forall_forall. intros y Y. rewrite Forall_forall in PR. unfold E'. rewrite FE.
    exact (present_more E y (body ++ rest) false stm (PR y Y) eq_refl (fun d => eq_refl)).
  - cbn [map]. constructor; [|exact ND]. intros I. apply in_map_iff in I. destruct I as (y & EQ & Y). rewrite Forall_forall in PR.
    pose proof (present_inside E y (PR y Y)) as B. change (pfile E) with file in B. unfold new in EQ. cbn [coff] in EQ. lia.
  - destruct LK as [[-> ->] | (x & l' & -> & -> & P0 & C)].
    + left. exact TP'.
    + split; [|split; [exact P0|]]; [change (cdict new) with tr; rewrite TP'; replace (0 <? coff x) with true by lia; easy|].
      apply (closed_more (x :: l')); [intros z; right; assumption|exact C].
  - unfold new. cbn [coff]. destruct file; [easy|cbn [length]; lia].
  - unfold cneed. change (cdict new) with tr. lia.
  - eexists. exact TS.
  - intros r o d I C. destruct SV as (_ & OO & _). destruct (OO r o d I) as (B1 & B2 & B3 & B4).
    destruct (put_facts fl tight inc objs _ _ _ PO) as (_ & A2 & A3 & _). destruct (A2 r o d I ltac:(destruct C as [-> | ->]; [easy|apply andb_false_r])) as (t & b1 & b2 & OT & EB & J).
    eexists. split.
    + apply H1; [lia|]. cbn [due]. apply in_or_app. left. rewrite <- surjective_pairing. exact J.
    + exists fl, tight, t, (b2 ++ rest). split; [exact OK|]. split; [exact OT|]. split.
      * rewrite FE, EB. replace (Z.to_nat _) with (length (file ++ b1)) by (rewrite app_length; lia).
        replace (file ++ (b1 ++ t ++ b2) ++ rest) with ((file ++ b1) ++ t ++ b2 ++ rest) by (rewrite <- !app_assoc; easy). rewrite skipn_app, skipn_all, Nat.sub_diag. easy.
      * split; [rewrite FE, EB, !app_length; lia|]. split; [lia|]. split; [lia|]. split; assumption.
  - intros r I. destruct SV as (_ & _ & FF). destruct (FF r I) as [B1 B2].
    assert (A : added_free (all_adds adds frees) (fst r) (snd r)) by (apply in_or_app; right; apply in_map_iff; exists r; split; [destruct r|]; easy).
    exact (free_listed inc (all_adds adds frees) secs _ _ AD XS A).
  - intros n e N L. apply H1 in L; [|exact N]. exact (due_changed fl tight inc _ objs frees body adds n e PO L).
Qed.
Lemma has_end_fun file n m : has_end false file n -> has_end false file m -> n = m.
Proof.
  intros A B. assert (NA : 0 <= n < 2 ^ 63) by (destruct A as (? & ? & ? & ? & ? & ? & ? & ? & ? & ? & _); assumption).
  assert (NB : 0 <= m < 2 ^ 63) by (destruct B as (? & ? & ? & ? & ? & ? & ? & ? & ? & ? & _); assumption).
  destruct (end_found _ _ _ A) as (la & CA & FA). destruct (end_found _ _ _ B) as (lb & CB & FB). rewrite CA in CB. apply ok_inj in CB. subst lb.
  destruct (FA 0) as (sa & EA & _). destruct (FB 0) as (sb & EB & _). rewrite EA in EB. injection EB as EB _. rewrite !Z.add_0_r, !u64_small in EB by lia. exact EB.
Qed.
Lemma written_more file off r o u : written file off r o -> written (file ++ u) off r o.
Proof.
  intros (fl & tight & text & k & OK & OT & SK & OF & R). exists fl, tight, text, (k ++ u). split; [exact OK|]. split; [exact OT|]. split.
  - rewrite skipn_app. replace (Z.to_nat off - length file)%nat with O by lia. rewrite SK, <- app_assoc. easy.
  - split; [rewrite app_length; lia|exact R].
Qed.
Definition state_of (v : list Z) (stm : nat -> Z -> res (dict * list Z)) (F : list Z) (off : Z) (h : list edit) : Prop :=
  let E := mk_penv F false 0 (at_least_13 (get_version v)) stm in
  has_header F v /\ has_end false F off /\ Z.of_nat (length F) < 10 ^ 10 /\
  exists x l, off = coff x /\ length (x :: l) = length h /\ Forall (present E) (x :: l) /\ NoDup (map coff (x :: l)) /\ closed (x :: l) (x :: l) /\ 0 < coff x /\
    (forall y, In y (x :: l) -> cneed y <= 2)%nat /\ (exists n, dict_get (bs "Size") (cdict x) = Some (ONum n)) /\
    (forall r o, last_object h r o -> exists p, newest E (x :: l) (fst r) (RUsed p (snd r)) /\ written F p r o) /\
    (forall r, last_free h r -> exists m, newest E (x :: l) (fst r) (RFree m (snd r))) /\
    (forall n e, 1 <= n -> never h n -> ~ newest E (x :: l) n e).
Lemma last_range h r : (forall inc objs frees, In (inc, objs, frees) h -> saveable objs frees) -> last_free h r \/ (exists o, last_object h r o) -> 1 <= fst r.
Proof.
  induction h as [|[[inc objs] frees] h IH]; intros SV H; [destruct H as [[] | [o []]]|]. pose proof (SV inc objs frees (or_introl eq_refl)) as (_ & OO & FF).
  assert (SV' : forall inc objs frees, In (inc, objs, frees) h -> saveable objs frees) by (intros; eapply SV; right; eassumption).
  destruct H as [[H | [_ H]] | (o & [(d & H & _) | [_ H]])].
  - destruct (FF r H). lia.
  - apply IH; auto.
  - destruct (OO _ _ _ H). lia.
  - apply IH; eauto.
Qed.
Lemma history_saveable v F off h : history v F off h -> forall inc objs frees, In (inc, objs, frees) h -> saveable objs frees.
Proof.
  induction 1 as [fl tight objs frees old id file off OK EO TP SV LF HE | fl tight objs frees old id file prev h file' off HI IH OK EO TP SV LF HE]; intros i' o' f' I.
  - destruct I as [I | []]. injection I as <- <- <-. apply EO.
  - destruct I as [I | I]; [injection I as <- <- <-; apply EO|exact (IH _ _ _ I)].
Qed.
Lemma history_state v stm F off h : In v pdf_versions -> history v F off h -> state_of v stm F off h.
Proof.
  intros V. induction 1 as [fl tight objs frees old id file off OK EO TP SV LF HE | fl tight objs frees old id file prev h file' off HI IH OK EO TP SV LF HE].
  - assert (HD : has_header (header_text v) v) by (split; [exact V|]; eexists; reflexivity).
    destruct (save_chain fl tight false (header_text v) objs frees old 0 id v [] stm file OK EO TP HD (Forall_nil _) (NoDup_nil _) (or_introl (conj eq_refl eq_refl)) SV LF)
      as (new & u & FE & HD' & HE' & PR & ND & CL & C0 & CN & SZ & O1 & O2 & O3).
    split; [exact HD'|]. split; [exact HE|]. split; [exact LF|]. exists new, []. pose proof (has_end_fun _ _ _ HE HE') as ->. split; [easy|]. split; [easy|].
    split; [exact PR|]. split; [exact ND|]. split; [exact CL|]. split; [exact C0|]. split; [intros y [<- | []]; exact CN|]. split; [exact SZ|]. split; [|split].
    + intros r o [(d & I & C) | [_ []]]. destruct (O1 r o d I C) as (p & L & WR). exists p. split; [|exact WR]. left. exists (XUsed p (snd r)). split; [exact L|cbn [as_read pmagic]; rewrite Z.add_0_r; easy].
    + intros r [I | [_ []]]. destruct (O2 r I) as [m L]. exists m. left. exists (XFree m (snd r)). split; [exact L|easy].
    + intros n e N [NC _] [(e' & L & _) | [_ []]]. exact (NC (O3 n e' N L)).
  - destruct IH as (HD & HE0 & LF0 & x & l & -> & LN & PR & ND & CL & C0 & CN & SZ & O1 & O2 & O3).
    destruct (save_chain fl tight true file objs frees old (coff x) id v (x :: l) stm file' OK EO TP HD PR ND ltac:(right; exists x, l; auto) SV LF)
      as (new & u & FE & HD' & HE' & PR' & ND' & CL' & C0' & CN' & SZ' & O1' & O2' & O3').
    split; [exact HD'|]. split; [exact HE|]. split; [exact LF|]. exists new, (x :: l). pose proof (has_end_fun _ _ _ HE HE') as ->. split; [easy|]. split; [cbn [length] in *; lia|].
    split; [exact PR'|]. split; [exact ND'|]. split; [exact CL'|]. split; [exact C0'|]. split; [intros y [<- | Y]; [exact CN'|exact (CN y Y)]|]. split; [exact SZ'|].
    pose proof (history_saveable _ _ _ _ HI) as HS.
    assert (OLD : forall (r : ref) e, 1 <= fst r -> ~ In (fst r) (changed true objs frees) -> newest (mk_penv file false 0 (at_least_13 (get_version v)) stm) (x :: l) (fst r) e ->
      newest (mk_penv file' false 0 (at_least_13 (get_version v)) stm) (new :: x :: l) (fst r) e).
    { intros r e R NC NW. right. split; [intros e' L; exact (NC (O3' _ _ R L))|]. eapply newest_same; [|exact NW]. reflexivity. }
    split; [|split].
    + intros r o [(d & I & C) | [NC LO]].
      * destruct (O1' r o d I C) as (p & L & WR). exists p. split; [|exact WR]. left. exists (XUsed p (snd r)). split; [exact L|cbn [as_read pmagic]; rewrite Z.add_0_r; easy].
      * destruct (O1 r o LO) as (p & NW & WR). exists p. split; [|rewrite FE; apply written_more; exact WR]. apply OLD; [|exact NC|exact NW]. apply (last_range h r HS). right. eauto.
    + intros r [I | [NC LO]].
      * destruct (O2' r I) as [m L]. exists m. left. exists (XFree m (snd r)). split; [exact L|easy].
      * destruct (O2 r LO) as [m NW]. exists m. apply OLD; [|exact NC|exact NW]. apply (last_range h r HS). left. exact LO.
    + intros n e N [NC NV] [(e' & L & _) | [_ NW]]; [exact (NC (O3' n e' N L))|]. apply (O3 n e N NV). eapply newest_same; [|exact NW]. reflexivity.
Qed.
Lemma history_read v stm F off h : In v pdf_versions -> history v F off h -> (length h <= 127)%nat ->
  exists st, parse_file false F stm new_parser = (Ok tt, st) /\
    (forall r o, last_object h r o -> found F (ents st) r o) /\
    (forall r, last_free h r -> exists m, look (ents st) (fst r) = Some (RFree m (snd r))) /\
    (forall n, 1 <= n -> never h n -> look (ents st) n = None).
Proof.
  intros V HI LH. pose proof (history_saveable _ _ _ _ HI) as HS. destruct (history_state v stm F off h V HI) as (HD & HE & LF & x & l & -> & LN & PR & ND & CL & C0 & CN & [sz SZ] & O1 & O2 & O3).
  destruct (file_newest false F stm v x l HD HE ltac:(lia) PR CL ND) as (st & t & PF & LK & _).
  - intros y Y. specialize (CN y Y). lia.
  - exists sz. cbn [newest_key]. rewrite SZ. easy.
  - exists st. split; [exact PF|]. split; [|split].
    + intros r o LO. assert (R : 1 <= fst r) by (apply (last_range h r HS); right; eauto). destruct (O1 r o LO) as (p & NW & WR). exists p. split; [apply LK; [lia|exact NW]|].
      rewrite <- (app_nil_r F). apply written_found. exact WR.
    + intros r LO. assert (R : 1 <= fst r) by (apply (last_range h r HS); left; exact LO). destruct (O2 r LO) as [m NW]. exists m. apply LK; [lia|exact NW].
    + intros n N NV. destruct (look (ents st) n) as [e|] eqn:L; [|easy]. apply LK in L; [|lia]. destruct (O3 n e N NV L).
Qed.
