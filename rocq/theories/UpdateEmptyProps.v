(** Objects without a value: the text of an object with any white space, and nothing between obj and endobj. *)
From Coq Require Import String.
From Verif Require Import Base TokModel WriteModel DictProofs TokProofs LexProofs ChainProofs ObjSpec ObjProofs ParseProofs ObjPropLemmas UtilModel ListModel XrefModel XrefSpec XrefProofs XrefReadProofs XrefPropLemmas ParserModel ParserSpec ParserProofs ParserPropLemmas UpdateModel UpdateSpec UpdateProofs.
Local Open Scope Z_scope.
Lemma tok_lit_after w t k : Forall (fun c => is_ws c = true) w -> t <> [] -> Forall (fun c => is_regular c = true) t -> (length t <= 4095)%nat -> stops k -> tok 4095 (w ++ t ++ k) = Some ((TLit, t), k).
Proof. intros W N R L S0. rewrite (tok_wss 4095 w _ W). apply tok_lit; assumption. Qed.
(** ** C79 *)
Theorem C79_empty_object file off n g w0 w1 w2 w3 k : Forall (Forall (fun c => is_ws c = true)) [w0; w1; w2; w3] -> w1 <> [] -> w2 <> [] -> w3 <> [] -> stops k ->
  0 <= n < 2 ^ 32 -> 0 <= g < 2 ^ 16 -> skipn (Z.to_nat off) file = w0 ++ dec n ++ w1 ++ dec g ++ w2 ++ bs "obj" ++ w3 ++ bs "endobj" ++ k ->
  load_object file off = Ok ((n, g), ONull, false).
Proof.
  intros W N1 N2 N3 S0 N G E. assert (W0 : Forall (fun c => is_ws c = true) w0) by (inversion W; assumption). assert (W' : Forall (Forall (fun c => is_ws c = true)) [w1; w2; w3]) by (inversion W; assumption).
  assert (W1 : Forall (fun c => is_ws c = true) w1) by (inversion W'; assumption). assert (W'' : Forall (Forall (fun c => is_ws c = true)) [w2; w3]) by (inversion W'; assumption).
  assert (W2 : Forall (fun c => is_ws c = true) w2) by (inversion W''; assumption). assert (W3 : Forall (fun c => is_ws c = true) w3) by (inversion W'' as [|? ? ? X]; inversion X; assumption).
  assert (ST : forall w r, w <> [] -> Forall (fun c => is_ws c = true) w -> stops (w ++ r)) by (intros [|c w] r X Y; [contradiction|]; left; inversion Y; assumption).
  unfold load_object. rewrite E.
  destruct (ParserPropLemmas.dec_tok n (w1 ++ dec g ++ w2 ++ bs "obj" ++ w3 ++ bs "endobj" ++ k) ltac:(lia) (ST _ _ N1 W1)) as [T1 V1].
  destruct (ParserPropLemmas.dec_tok g (w2 ++ bs "obj" ++ w3 ++ bs "endobj" ++ k) ltac:(lia) (ST _ _ N2 W2)) as [T2 V2].
  rewrite (next_number_in 4095 TLit (dec n) _ (w1 ++ dec g ++ w2 ++ bs "obj" ++ w3 ++ bs "endobj" ++ k) n); [|rewrite tok_wss by exact W0; exact T1|exact V1].
  rewrite (next_number_in 4095 TLit (dec g) _ (w2 ++ bs "obj" ++ w3 ++ bs "endobj" ++ k) g); [|rewrite tok_wss by exact W1; exact T2|exact V2].
  unfold next_token at 1. cbn [tq tin]. rewrite (tok_lit_after w2 (bs "obj")); [|exact W2|discriminate|repeat constructor|cbn; lia|apply ST; assumption]. cbn [snd]. rewrite beq_refl.
  unfold next_token. cbn [tq tin]. rewrite (tok_lit_after w3 (bs "endobj")); [|exact W3|discriminate|repeat constructor|cbn; lia|exact S0]. cbn [snd]. rewrite beq_refl.
  replace (u32 n) with n by (unfold u32; symmetry; apply Z.mod_small; exact N). replace (u16 g) with g by (unfold u16; symmetry; apply Z.mod_small; exact G). reflexivity.
Qed.
Print Assumptions C79_empty_object.
Example C79_empty_case : load_object (bs "%PDF 7 0 obj endobj ") 5 = Ok ((7, 0), ONull, false).
Proof. vm_compute. reflexivity. Qed.
