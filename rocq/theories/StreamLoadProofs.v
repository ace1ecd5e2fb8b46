(** Loading a stream whose length is an object of its own *)
From Coq Require Import String Lia.
From Verif Require Import Base TokModel WriteModel DictProofs TokProofs LexProofs ReadEq RealProofs ChainProofs ObjSpec ObjProofs ParseProofs ObjPropLemmas UtilModel FilterModel FilterSpec FilterProofs FilterPropLemmas OwnModel OwnProofs ListModel XrefModel XrefSpec XrefProofs XrefReadProofs XrefPropLemmas ParserModel ParserSpec ParserProofs ParserPropLemmas UpdateModel UpdateSpec UpdateProofs StreamModel StreamSpec StreamProofs.
Local Open Scope Z_scope.
Local Notation dict := (list (list Z * obj)) (only parsing).

Lemma stream_loads fl tight r (d : dict) data text file off k look ts : options_ok fl tight ->
  wf_obj default_params (ODict d) -> (S (inner (ODict d)) <= 256)%nat -> 0 <= fst r < 2 ^ 32 -> 0 <= snd r < 2 ^ 16 ->
  write fl (ODict d) = Ok text -> dict_find look (bs "Length") d = Some (ONum (Z.of_nat (length data))) ->
  skipn (Z.to_nat off) file = (dec (fst r) ++ [32] ++ dec (snd r) ++ bs " obj" ++ (if tight then [] else [10]) ++ text ++ [10] ++ bs "stream" ++ [10]) ++ data ++ k -> create_filter_list look (ODict d) = Ok ts ->
  load_stream look file off = Ok (r, mk_sobj d data ts).
Proof.
  destruct r as [n g]. intros [F TG] W D N G WT LN S0 CF. cbn [fst snd] in *. unfold load_stream, load_parts. rewrite S0.
  set (tail := data ++ k).
  set (body := (if tight then [] else [10]) ++ text ++ [10] ++ bs "stream" ++ [10] ++ tail).
  match goal with |- context [next_number 4095 (mk_tst [] ?X)] => replace X with (dec n ++ 32 :: dec g ++ 32 :: bs "obj" ++ body) end.
  2:{ unfold body, tail. change (bs " obj") with (32 :: bs "obj"). repeat first [rewrite <- app_assoc | progress cbn [app]]. reflexivity. }
  destruct (ParserPropLemmas.dec_tok n (32 :: dec g ++ 32 :: bs "obj" ++ body) ltac:(lia) ltac:(left; easy)) as [T1 V1].
  destruct (ParserPropLemmas.dec_tok g (32 :: bs "obj" ++ body) ltac:(lia) ltac:(left; easy)) as [T2 V2].
  rewrite (next_number_in 4095 TLit (dec n) _ _ n T1 V1).
  rewrite (next_number_in 4095 TLit (dec g) _ (32 :: bs "obj" ++ body) g); [|rewrite tok_ws by easy; exact T2|exact V2].
  unfold next_token at 1. cbn [tq tin]. rewrite tok_ws by easy. rewrite tok_lit; [|discriminate|repeat constructor| |cbn; lia].
  2:{ unfold body. destruct tight; [|left; easy]. cbn [app]. eapply stops_text; [exact buf20|exact W|exact WT|]. destruct F as [F | F]; [rewrite (TG eq_refl) in F; discriminate|exact F]. }
  cbn [snd]. rewrite beq_refl. cbn [tin].
  assert (PB : parse default_params body = Ok (Some (ODict d), mk_tst [] ([10] ++ bs "stream" ++ [10] ++ tail))).
  { unfold body. destruct tight; cbn [app]; [|apply parse_ws; [easy|]]; apply (dict_back fl); assumption. }
  unfold parse, read_next in PB. change (rbuf default_params) with 4095%nat in PB.
  destruct (next_token 4095 (mk_tst [] body)) as [[t' s4]|] eqn:NB; [|discriminate].
  destruct (beq (snd t') (bs "endobj")) eqn:EO.
  - exfalso. apply beq_eq in EO. destruct t' as [ty x]. cbn [snd] in EO. subst x. unfold next_token in NB. cbn [tq tin] in NB.
    destruct (tok 4095 body) as [[tk r0]|] eqn:TK; [|discriminate]. injection NB as -> <-.
    apply word_literal in TK; [|cbn; lia]. subst ty. replace (3 * length body + 3)%nat with (S (S (3 * length body + 1))) in PB by lia. discriminate PB.
  - rewrite PB. cbn [bind].
    unfold next_token at 1. cbn [tq tin]. cbn [app]. rewrite tok_ws by easy. change (115 :: 116 :: 114 :: 101 :: 97 :: 109 :: 10 :: tail) with (bs "stream" ++ 10 :: tail).
    rewrite tok_lit; [|discriminate|repeat constructor|left; easy|cbn; lia].
    cbn [snd]. change (beq (bs "stream") (bs "endobj")) with false. cbn match. rewrite beq_refl. cbn [bind tin].
    unfold load_data. rewrite LN. cbn [data_start]. change ((10 =? 32) || (10 =? 9)) with false. cbn match. change (10 =? 13) with false. change (10 =? 10) with true. cbn match. cbn [bind].
    rewrite CF. cbn [bind]. rewrite (proj2 (Z.ltb_ge _ 0)) by lia. rewrite Nat2Z.id. unfold tail. rewrite firstn_app, Nat.sub_diag, firstn_all. cbn [firstn]. rewrite app_nil_r.
    replace (u32 n) with n by (unfold u32; symmetry; apply Z.mod_small; exact N). replace (u16 g) with g by (unfold u16; symmetry; apply Z.mod_small; exact G). reflexivity.
Qed.
