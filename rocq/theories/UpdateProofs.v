(** Saved files are read back *)
From Coq Require Import String.
From Verif Require Import Base TokModel WriteModel DictProofs TokProofs LexProofs ChainProofs ObjSpec ObjProofs ParseProofs ObjPropLemmas UtilModel ListModel XrefModel XrefSpec XrefProofs XrefReadProofs XrefPropLemmas ParserModel ParserSpec ParserProofs ParserPropLemmas UpdateModel UpdateSpec.
Local Open Scope Z_scope.
Local Notation dict := (list (list Z * obj)) (only parsing).

(** ** Loading an object that was written *)
Lemma word_literal buf inp ty x r : tok buf inp = Some ((ty, x), r) -> (2 < length x)%nat -> ty = TLit.
Proof.
  unfold tok. generalize false. induction inp as [|c inp IH]; intros b H L; [discriminate|]. cbn [tok_from] in H.
  destruct b; [exact (IH _ H L)|]. destruct (is_ws c); [exact (IH _ H L)|]. destruct (c =? 37); [exact (IH _ H L)|].
  destruct ((c =? 60) || (c =? 62)).
  - destruct inp as [|d inp]; [injection H as <- <- _; cbn in L; lia|]. destruct (d =? c); injection H as <- <- _; cbn in L; lia.
  - destruct (token_delim c) as [ty'|]; [injection H as <- <- _; cbn in L; lia|]. destruct (lit_rest (Nat.pred buf) inp) as [t r']. injection H as <- _ _. easy.
Qed.
Lemma load_text fl tight n g o text file off k : flags_ok fl -> (tight = true -> wclean fl = false) -> wf_obj default_params o -> (S (inner o) <= 256)%nat ->
  0 <= n < 2 ^ 32 -> 0 <= g < 2 ^ 16 -> obj_text fl tight (n, g) o = Ok text -> skipn (Z.to_nat off) file = text ++ k ->
  load_object file off = Ok ((n, g), o, false).
Proof.
  intros F TG W D N G OT S0. unfold obj_text in OT. destruct (objects_endobj fl o k F W D) as (t & s & s' & WT & P & NT & _).
  rewrite WT in OT. cbn [bind fst snd] in OT. apply ok_inj in OT. subst text. unfold load_object. rewrite S0.
  set (body := (if tight then [] else [10]) ++ t ++ [10] ++ bs "endobj" ++ [10] ++ k).
  replace ((dec n ++ [32] ++ dec g ++ bs " obj" ++ (if tight then [] else [10]) ++ t ++ [10] ++ bs "endobj" ++ [10]) ++ k)
    with (dec n ++ 32 :: dec g ++ 32 :: bs "obj" ++ body).
  2:{ unfold body. change (bs " obj") with (32 :: bs "obj"). repeat first [rewrite <- app_assoc | progress cbn [app]]. reflexivity. }
  destruct (dec_tok n (32 :: dec g ++ 32 :: bs "obj" ++ body) ltac:(lia) ltac:(left; easy)) as [T1 V1].
  destruct (dec_tok g (32 :: bs "obj" ++ body) ltac:(lia) ltac:(left; easy)) as [T2 V2].
  rewrite (next_number_in 4095 TLit (dec n) _ _ n T1 V1).
  rewrite (next_number_in 4095 TLit (dec g) _ (32 :: bs "obj" ++ body) g); [|rewrite tok_ws by easy; exact T2|exact V2].
  unfold next_token at 1. cbn [tq tin]. rewrite tok_ws by easy. rewrite tok_lit; [|discriminate|repeat constructor| |cbn; lia].
  2:{ unfold body. destruct tight; [|left; easy]. cbn [app]. eapply stops_text; [exact buf20|exact W|exact WT|]. destruct F as [F | F]; [rewrite (TG eq_refl) in F; discriminate|exact F]. }
  cbn [snd]. rewrite beq_refl. cbn [tin].
  assert (PB : parse default_params body = Ok (Some o, s)).
  { unfold body. destruct tight; [exact P|]. cbn [app]. apply parse_ws; [easy|exact P]. }
  unfold parse, read_next in PB. change (rbuf default_params) with 4095%nat in PB.
  destruct (next_token 4095 (mk_tst [] body)) as [[t' s4]|] eqn:NB; [|discriminate].
  destruct (beq (snd t') (bs "endobj")) eqn:EO.
  - exfalso. apply beq_eq in EO. destruct t' as [ty x]. cbn [snd] in EO. subst x. unfold next_token in NB. cbn [tq tin] in NB.
    destruct (tok 4095 body) as [[tk r]|] eqn:TK; [|discriminate]. injection NB as -> <-.
    apply word_literal in TK; [|cbn; lia]. subst ty. replace (3 * length body + 3)%nat with (S (S (3 * length body + 1))) in PB by lia. discriminate PB.
  - rewrite PB. cbn [bind]. rewrite NT. cbn [snd]. rewrite beq_refl.
    replace (u32 n) with n by (unfold u32; symmetry; apply Z.mod_small; exact N). replace (u16 g) with g by (unfold u16; symmetry; apply Z.mod_small; exact G). reflexivity.
Qed.

(** ** What is written and added *)
Lemma put_facts fl tight inc : forall l pos b adds, put_objects fl tight inc pos l = Ok (b, adds) ->
  map fst adds = map (fun x : wobj => fst (fst x)) l /\
  (forall r o d, In (r, o, d) l -> inc && negb d = false -> exists t b1 b2, obj_text fl tight r o = Ok t /\ b = b1 ++ t ++ b2 /\
     In (r, XInUse (Some (pos + Z.of_nat (length b1)))) adds) /\
  (forall r off, In (r, XInUse (Some off)) adds -> exists o d, In (r, o, d) l /\ inc && negb d = false /\ pos <= off <= pos + Z.of_nat (length b)) /\
  (forall r, In (r, XInUse None) adds -> exists o, In (r, o, false) l /\ inc = true) /\
  (forall r, ~ In (r, XFreed) adds).
Proof.
  induction l as [|[[r o] d] l IH]; intros pos b adds H.
  - injection H as <- <-. repeat split; intros; contradiction || (destruct H; fail) || auto.
  - cbn [put_objects] in H. destruct (inc && negb d) eqn:C.
    + apply bind_ok in H. destruct H as ((b', adds') & H & E). apply ok_inj in E. injection E as <- <-. cbn [fst snd] in *.
      destruct (IH _ _ _ H) as (A & B & CC & DD & EE). split; [cbn [map fst]; rewrite A; easy|]. split; [|split; [|split]].
      * intros r' o' d' [X | I] N; [injection X as <- <- <-; congruence|]. destruct (B r' o' d' I N) as (t & b1 & b2 & B1 & B2 & B3). exists t, b1, b2. split; [exact B1|split; [exact B2|right; exact B3]].
      * intros r' off [X | I]; [discriminate|]. destruct (CC r' off I) as (o' & d' & C1 & C2). exists o', d'. split; [right; exact C1|exact C2].
      * intros r' [X | I]; [injection X as <-; exists o; apply andb_true_iff in C; destruct C as [C1 C2]; destruct d; [discriminate|]; split; [left; easy|exact C1]|].
        destruct (DD r' I) as (o' & D1 & D2). exists o'. split; [right; exact D1|exact D2].
      * intros r' [X | I]; [discriminate|]. exact (EE r' I).
    + apply bind_ok in H. destruct H as (t & OT & H). apply bind_ok in H. destruct H as ((b', adds') & H & E). apply ok_inj in E. injection E as <- <-. cbn [fst snd] in *.
      destruct (IH _ _ _ H) as (A & B & CC & DD & EE). split; [cbn [map fst]; rewrite A; easy|]. split; [|split; [|split]].
      * intros r' o' d' [X | I] N.
        -- injection X as <- <- <-. exists t, [], b'. split; [exact OT|]. split; [easy|]. left. cbn [length]. rewrite Z.add_0_r. easy.
        -- destruct (B r' o' d' I N) as (t' & b1 & b2 & B1 & B2 & B3). exists t', (t ++ b1), b2. split; [exact B1|]. split; [rewrite B2, <- app_assoc; easy|]. right.
           rewrite app_length, Nat2Z.inj_add, Z.add_assoc. exact B3.
      * intros r' off [X | I].
        -- injection X as <- <-. exists o, d. split; [left; easy|]. split; [exact C|]. rewrite app_length. lia.
        -- destruct (CC r' off I) as (o' & d' & C1 & C2 & C3). exists o', d'. split; [right; exact C1|]. split; [exact C2|]. rewrite app_length. lia.
      * intros r' [X | I]; [discriminate|]. destruct (DD r' I) as (o' & D1 & D2). exists o'. split; [right; exact D1|exact D2].
      * intros r' [X | I]; [discriminate|]. exact (EE r' I).
Qed.
Lemma put_total fl tight inc : forall l pos, (forall r o d, In (r, o, d) l -> wf_obj default_params o) -> exists b adds, put_objects fl tight inc pos l = Ok (b, adds).
Proof.
  induction l as [|[[r o] d] l IH]; intros pos W; [eexists _, _; reflexivity|]. cbn [put_objects].
  assert (W' : forall r o d, In (r, o, d) l -> wf_obj default_params o) by (intros; eapply W; right; eassumption).
  destruct (inc && negb d).
  - destruct (IH pos W') as (b & adds & ->). eexists _, _. reflexivity.
  - destruct (write_total default_params fl o (W r o d (or_introl eq_refl))) as [t WT]. unfold obj_text. rewrite WT. cbn [bind].
    match goal with |- context [put_objects fl tight inc ?p l] => destruct (IH p W') as (b & adds & ->) end. eexists _, _. reflexivity.
Qed.

(** ** The trailer *)
Lemma fill_trailer_facts old size prev id : sorted (fill_trailer old size prev id) /\
  dict_get (bs "Size") (fill_trailer old size prev id) = Some (ONum size) /\
  dict_get (bs "ID") (fill_trailer old size prev id) = Some (OArr id) /\
  dict_get (bs "Root") (fill_trailer old size prev id) = dict_get (bs "Root") old /\
  dict_get (bs "Info") (fill_trailer old size prev id) = dict_get (bs "Info") old /\
  dict_get (bs "Prev") (fill_trailer old size prev id) = (if 0 <? prev then Some (ONum prev) else None) /\
  dict_get (bs "XRefStm") (fill_trailer old size prev id) = None /\ dict_get (bs "Encrypt") (fill_trailer old size prev id) = None.
Proof.
  unfold fill_trailer. set (d0 := dict_add (bs "Size") (ONum size) []).
  assert (S0 : sorted d0) by (apply dict_add_sorted; constructor).
  assert (CK : forall k d, sorted d -> sorted (copy_key old k d) /\ forall q, dict_get q (copy_key old k d) = if beq q k then match dict_get q old with Some v => Some v | None => dict_get q d end else dict_get q d).
  { intros k d Sd. unfold copy_key. destruct (dict_get k old) as [v|] eqn:G.
    - split; [apply dict_add_sorted; exact Sd|]. intros q. rewrite dict_get_add by exact Sd. destruct (beq q k) eqn:B; [apply beq_eq in B; subst q; rewrite G; easy|easy].
    - split; [exact Sd|]. intros q. destruct (beq q k) eqn:B; [apply beq_eq in B; subst q; rewrite G; easy|easy]. }
  destruct (CK (bs "Root") d0 S0) as [S1 G1]. set (d1 := copy_key old (bs "Root") d0) in *.
  destruct (CK (bs "Info") d1 S1) as [S2 G2]. set (d2 := copy_key old (bs "Info") d1) in *.
  set (d3 := dict_add (bs "ID") (OArr id) d2). assert (S3 : sorted d3) by (apply dict_add_sorted; exact S2).
  assert (G3 : forall q, dict_get q d3 = if beq q (bs "ID") then Some (OArr id) else dict_get q d2) by (intros q; apply dict_get_add; exact S2).
  assert (G0 : forall q, dict_get q d0 = if beq q (bs "Size") then Some (ONum size) else None) by (intros q; unfold d0; rewrite dict_get_add by constructor; easy).
  clearbody d0 d1 d2 d3. cbv zeta.
  assert (K : forall q, dict_get q d3 = if beq q (bs "ID") then Some (OArr id) else if beq q (bs "Info") then match dict_get q old with Some v => Some v | None => if beq q (bs "Size") then Some (ONum size) else None end
    else if beq q (bs "Root") then match dict_get q old with Some v => Some v | None => if beq q (bs "Size") then Some (ONum size) else None end else if beq q (bs "Size") then Some (ONum size) else None).
  { intros q. rewrite G3, G2, G1, G0. destruct (beq q (bs "ID")), (beq q (bs "Info")), (beq q (bs "Root")), (dict_get q old); easy. }
  assert (SP : sorted (if 0 <? prev then dict_add (bs "Prev") (ONum prev) d3 else d3)) by (destruct (0 <? prev); [apply dict_add_sorted|]; exact S3).
  assert (KP : forall q, dict_get q (if 0 <? prev then dict_add (bs "Prev") (ONum prev) d3 else d3) = if (0 <? prev) && beq q (bs "Prev") then Some (ONum prev) else dict_get q d3).
  { intros q. destruct (0 <? prev); [|easy]. rewrite dict_get_add by exact S3. cbn [andb]. easy. }
  split; [exact SP|]. rewrite !KP, !K.
  repeat match goal with |- context [beq (bs ?a) (bs ?b)] => let v := eval vm_compute in (beq (bs a) (bs b)) in change (beq (bs a) (bs b)) with v end.
  rewrite !andb_false_r, andb_true_r. cbn match. repeat split; try (destruct (dict_get _ old); easy).
Qed.

(** ** The section that is written *)
Definition all_adds (adds : list (ref * xadd)) (frees : list ref) : list (ref * xadd) := adds ++ map (fun r => (r, XFreed)) frees.
Lemma NoDup_fst_eq {A} (l : list (ref * A)) n g g' x x' : NoDup (map (fun y => fst (fst y)) l) -> In ((n, g), x) l -> In ((n, g'), x') l -> (g, x) = (g', x').
Proof.
  induction l as [|y l IH]; intros ND I J; [destruct I|]. cbn [map] in ND. apply NoDup_cons_iff in ND. destruct ND as [N1 N2].
  destruct I as [-> | I], J as [J | J].
  - injection J as -> ->. easy.
  - exfalso. apply N1. exact (in_map (fun y => fst (fst y)) l _ J).
  - subst y. exfalso. apply N1. exact (in_map (fun y => fst (fst y)) l _ I).
  - exact (IH N2 I J).
Qed.
Lemma table_tail_wf secs : table_text secs <> [].
Proof. discriminate. Qed.

Lemma save_section fl tight inc file objs frees old prev id F : options_ok fl tight -> saveable objs frees ->
  (inc = true \/ objs <> [] \/ frees <> []) ->
  save fl tight inc file objs frees old prev id = Ok F -> Z.of_nat (length F) < 10 ^ 10 -> file <> [] ->
  exists body adds secs,
    put_objects fl tight inc (Z.of_nat (length file)) objs = Ok (body, adds) /\
    xref_sections (if inc then first_empty (add_objects (all_adds adds frees)) else add_objects (all_adds adds frees)) = Ok secs /\
    addable (all_adds adds frees) /\ well_formed 0 secs /\
    (forall n x, 1 <= n -> (lists secs n x <-> due (all_adds adds frees) n x)) /\
    (forall x, lists secs 0 x -> exists m, x = XFree m 65535) /\
    Forall (limits 0) secs /\
    let tr := fill_trailer old (xref_size (add_objects (all_adds adds frees))) prev id in
    let new := mk_csec (Z.of_nat (length file) + Z.of_nat (length body)) tr secs false in
    (exists rest, F = file ++ body ++ rest) /\ has_end false F (coff new) /\
    (wf_obj default_params (ODict tr) -> (length secs < 512)%nat -> forall strict v13 stm, present (mk_penv F strict 0 v13 stm) new).
Proof.
  intros [FL TG] (ND & OO & FF) NE SV LF NF. unfold save in SV. apply bind_ok in SV. destruct SV as ((body, adds) & PO & SV). cbn [fst snd] in SV.
  destruct (put_facts fl tight inc objs _ _ _ PO) as (A1 & A2 & A3 & A4 & A5). fold (all_adds adds frees) in SV.
  set (AL := all_adds adds frees) in *. set (tr := fill_trailer old (xref_size (add_objects AL)) prev id) in *.
  apply bind_ok in SV. destruct SV as (secs & XS & SV). apply bind_ok in SV. destruct SV as (t & WT & SV). apply ok_inj in SV.
  assert (RF : forall y, In y AL -> exists r, fst y = r /\ 1 <= fst r < 8388607 /\ 0 <= snd r < 2 ^ 16).
  { intros y I. exists (fst y). split; [easy|]. unfold AL, all_adds in I. apply in_app_or in I. destruct I as [I | I].
    - apply (in_map fst) in I. rewrite A1 in I. apply in_map_iff in I. destruct I as ([[r o] d] & E & I). cbn [fst] in E. rewrite <- E. destruct (OO r o d I) as (B1 & B2 & _). easy.
    - apply in_map_iff in I. destruct I as (r & <- & I). exact (FF r I). }
  assert (AD : addable AL).
  { split.
    - unfold AL, all_adds. rewrite map_app, map_map. cbn [fst].
      assert (MA : map (fun x : ref * xadd => fst (fst x)) adds = map (fun x : wobj => fst (fst (fst x))) objs)
        by (rewrite <- (map_map (fun x : wobj => fst (fst x)) fst), <- A1, map_map; easy).
      unfold ref in MA at 1. change (NoDup (map (fun x : ref * xadd => fst (fst x)) adds ++ map fst frees)). unfold ref at 1. rewrite MA. exact ND.
    - apply Forall_forall. intros y I. destruct (RF y I) as (r & <- & B1 & B2). cbv beta. destruct y as [[n g] x]. cbn [fst snd] in *. lia. }
  assert (LB : (length file + length body <= length F)%nat) by (rewrite <- SV, !app_length; lia).
  assert (FA : Forall (fits_add 0) AL).
  { apply Forall_forall. intros y I. destruct (RF y I) as (r & E & B1 & B2). unfold fits_add. rewrite E. split; [lia|]. split; [lia|].
    destruct y as [r' x]. cbn [snd fst] in *. subst r'. destruct x as [[off|]|]; try easy. unfold AL, all_adds in I. apply in_app_or in I. destruct I as [I | I].
    - destruct (A3 _ _ I) as (o & d & _ & _ & C). lia.
    - apply in_map_iff in I. destruct I as (r' & E' & _). discriminate. }
  assert (SO : inc = true \/ something AL).
  { destruct inc; [left; easy|right]. destruct NE as [NE | [NE | NE]]; [discriminate| |].
    - destruct objs as [|[[r o] d] objs]; [easy|]. destruct (A2 r o d (or_introl eq_refl) eq_refl) as (t0 & b1 & b2 & _ & _ & I). destruct r as [n g].
      exists n, g. left. exists (Z.of_nat (length file) + Z.of_nat (length b1)). apply in_or_app. left. exact I.
    - destruct frees as [|[n g] frees]; [easy|]. exists n, g. right. apply in_or_app. right. left. easy. }
  destruct (sections_of_adds AL inc AD SO) as (secs' & XS' & W & H1 & H0). rewrite XS in XS'. apply ok_inj in XS'. subst secs'.
  pose proof (limits_of_adds 0 AL inc secs AD FA SO XS) as LM.
  exists body, adds, secs. split; [exact PO|]. split; [exact XS|]. split; [exact AD|]. split; [exact W|]. split; [exact H1|].
  split; [intros x L; apply H0 in L; destruct L as (_ & m & _ & ->); eauto|]. split; [exact LM|].
  cbv zeta. fold tr. cbn [coff].
  set (off := Z.of_nat (length file) + Z.of_nat (length body)) in *.
  split; [eexists; symmetry; exact SV|]. split.
  - exists (file ++ body ++ table_text secs ++ bs "trailer" ++ [10] ++ t ++ [10]), [10], [], 10, [10].
    split; [rewrite <- SV; rewrite <- !app_assoc; easy|].
    split; [destruct file; [easy|discriminate]|]. split; [discriminate|]. split; [repeat constructor|]. split; [unfold off; lia|]. split.
    + intros i I [q Q]. do 6 (destruct i as [|i]; [try lia; discriminate|]). cbn in Q. destruct i; discriminate.
    + pose proof (dec_len off 10 ltac:(unfold off; lia) ltac:(lia)) as DL. rewrite !app_length. change (length (bs "startxref")) with 9%nat. cbn [length]. lia.
  - intros WF L5 strict v13 stm. split; [cbn [coff pfile]; unfold off; lia|]. split; [exact W|]. split; [exact WF|]. cbn [cstream csecs cdict pmagic pfile coff].
    split; [exact LM|]. split; [exact L5|]. split; [apply fill_trailer_facts|].
    exists fl, t, ([10] ++ bs "startxref" ++ [10] ++ dec off ++ [10] ++ bs "%%EOF" ++ [10]). split; [exact FL|]. split; [exact WT|].
    rewrite <- SV. replace (Z.to_nat off) with (length (file ++ body)) by (unfold off; rewrite app_length; lia). rewrite (app_assoc file body), skipn_app, skipn_all, Nat.sub_diag. easy.
Qed.

(** ** What the reader gets *)
Lemma present_more E x u strict stm : present E x -> pmagic E = 0 -> (forall d, stm d (coff x) = pstm E d (coff x)) ->
  present (mk_penv (pfile E ++ u) strict 0 (pv13 E) stm) x.
Proof.
  intros (O1 & W & WO & PR) M ST. split; [cbn [pfile]; rewrite app_length; lia|]. split; [exact W|]. split; [exact WO|].
  cbn [pfile pmagic pv13 pstm]. assert (SK : skipn (Z.to_nat (coff x)) (pfile E ++ u) = skipn (Z.to_nat (coff x)) (pfile E) ++ u).
  { rewrite skipn_app. replace (Z.to_nat (coff x) - length (pfile E))%nat with O by lia. easy. }
  rewrite SK. destruct (cstream x).
  - destruct PR as (V & (c & k & S0 & DG) & A & B & C & D & IX & P). split; [exact V|]. split; [exists c, (k ++ u); rewrite S0; easy|].
    split; [exact A|]. split; [exact B|]. split; [exact C|]. split; [exact D|]. split; [exact IX|]. intros d N. rewrite ST. apply P. exact N.
  - rewrite M in PR. destruct PR as (A & B & C & fl & t & k & F & T & S0). split; [exact A|]. split; [exact B|]. split; [exact C|].
    exists fl, t, (k ++ u). split; [exact F|]. split; [exact T|]. rewrite S0, <- !app_assoc. easy.
Qed.
Lemma present_inside E x : present E x -> coff x < Z.of_nat (length (pfile E)).
Proof.
  intros (O1 & W & WO & PR). assert (NE : skipn (Z.to_nat (coff x)) (pfile E) <> []).
  { destruct (cstream x); [destruct PR as (_ & (c & k & -> & _) & _); discriminate|destruct PR as (_ & _ & _ & fl & t & k & _ & _ & ->); discriminate]. }
  destruct (Z.eq_dec (coff x) (Z.of_nat (length (pfile E)))) as [E1 | E1]; [|lia]. exfalso. apply NE. rewrite E1, Nat2Z.id, skipn_all. easy.
Qed.
Lemma newest_same E E' l n r : pmagic E = pmagic E' -> newest E l n r <-> newest E' l n r.
Proof. intros M. induction l as [|x l IH]; [easy|]. cbn [newest]. rewrite M, IH. easy. Qed.
