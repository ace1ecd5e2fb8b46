(** A cross-reference stream without /Index, as other programs write it: the entries are those of the objects 0, 1, 2, ... *)
From Coq Require Import String.
From Verif Require Import Base TokModel WriteModel DictProofs ObjSpec ObjPropLemmas UtilModel ListModel XrefModel XrefSpec XrefStreamProofs ParserModel ParserSpec ParserProofs ChainProofs.
Local Open Scope Z_scope.

(** The bytes of an entry, whatever follows them *)
Definition row (w0 w1 w2 : Z) (e : rent) (b : list Z) : Prop := Z.of_nat (length b) = w0 + w1 + w2 /\ forall k, read_raw w0 w1 w2 (b ++ k) = Ok e.
Lemma read_rows w0 w1 w2 : 1 <= w0 + w1 + w2 -> forall es rows, Forall2 (row w0 w1 w2) es rows -> forall done i k, k <> [] -> i = Z.of_nat (length done) -> i + Z.of_nat (length rows) < 2 ^ 32 ->
  read_raws (length rows) i w0 w1 w2 (concat rows ++ k) (done ++ repeat None (length rows)) = Ok (k, done ++ map Some es).
Proof.
  intros W. induction 1 as [|e b es rows (L & R) F IH]; intros done i k K I B; [cbn; rewrite !app_nil_r; reflexivity|]. cbn [length concat repeat read_raws map] in *. rewrite <- app_assoc.
  destruct b as [|x b]; [cbn [length] in L; lia|]. set (rest := concat rows ++ k) in *. assert (RN : rest <> []) by (subst rest; destruct k; [contradiction|]; destruct (concat rows); discriminate).
  assert (U : Z.to_nat (u32 i) = length done) by (unfold u32; rewrite Z.mod_small by lia; lia). rewrite U, nth_error_app2 by lia. rewrite Nat.sub_diag. cbn [nth_error]. rewrite R.
  cbn [bind]. rewrite set_nth_app. replace (Z.to_nat (w0 + w1 + w2)) with (length (x :: b)) by lia. rewrite skipn_app, skipn_all, Nat.sub_diag. cbn [skipn app].
  specialize (IH (done ++ [Some e]) (i + 1) k K). rewrite app_length in IH. cbn [length] in IH. rewrite <- !app_assoc in IH. cbn [app] in IH. rewrite <- IH by lia.
  destruct (b ++ rest) eqn:E; [destruct b; [contradiction|discriminate]|]. reflexivity.
Qed.
(** Any widths, any number of entries: the table is the list of the entries *)
Theorem C22_no_index d w0 w1 w2 es rows : dict_get (bs "Size") d = Some (ONum (Z.of_nat (length rows))) -> dict_get (bs "W") d = Some (OArr [ONum w0; ONum w1; ONum w2]) -> dict_get (bs "Index") d = None ->
  0 <= w0 -> 0 <= w1 -> 0 <= w2 -> 1 <= w0 + w1 + w2 < 2 ^ 63 -> Forall2 (row w0 w1 w2) es rows -> Z.of_nat (length rows) <= 8388607 ->
  stream_table d (concat rows) [] = Ok (map Some es).
Proof.
  intros S W I A0 A1 A2 AW F B. unfold stream_table, key_number, find_direct. rewrite S, W, I. cbn [bind]. unfold parse_stream.
  rewrite (proj2 (Z.ltb_ge w0 0)), (proj2 (Z.ltb_ge w1 0)), (proj2 (Z.ltb_ge w2 0)) by lia. cbn [orb]. rewrite (proj2 (Z.ltb_ge (2 ^ 63 - 1) _)) by lia. cbn [length Nat.odd Nat.even negb read_pairs].
  assert (IO : int64_ok (0 + Z.of_nat (length rows)) = true) by (unfold int64_ok; apply andb_true_intro; split; [apply Z.leb_le|try apply Z.leb_le; try apply Z.ltb_lt]; lia).
  rewrite IO. cbn [negb]. unfold enlarge. rewrite (proj2 (Z.ltb_ge (0 + _) 0)) by lia. rewrite (proj2 (Z.ltb_ge 8388607 _)) by lia. cbn [bind length app]. rewrite Z.add_0_l, Nat2Z.id, Nat.sub_0_r.
  assert (U : Z.to_nat (u32 (Z.of_nat (length rows))) = length rows) by (unfold u32; rewrite Z.mod_small by lia; lia). rewrite U. change (u32 0) with 0.
  pose proof (read_rows w0 w1 w2 ltac:(lia) es rows F [] 0 [0] ltac:(discriminate) eq_refl ltac:(lia)) as R. cbn [app] in R. rewrite R. reflexivity.
Qed.
Print Assumptions C22_no_index.
Example C22_no_index_case : stream_table [(bs "Size", ONum 2); (bs "W", OArr [ONum 1; ONum 2; ONum 1])] [0; 0; 0; 255; 1; 1; 44; 0] [] = Ok [Some (RFree 0 255); Some (RUsed 300 0)].
Proof. vm_compute. reflexivity. Qed.
