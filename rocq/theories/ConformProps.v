(** Property C76: what the writer writes is a text of the object in the grammar of the standard. *)
From Coq Require Import String Permutation.
From Verif Require Import Base TokModel WriteModel ObjSpec LitSpec ConformSpec ConformProofs.
Local Open Scope Z_scope.

(** Missing: reals with more than six decimals, which are rounded (C06), and the layout with neither spaces nor leading
    spaces, see the refutation. *)
Theorem C76_written_text_partial fl o t : flags_ok fl -> expressible o -> write fl o = Ok t ->
  exists w t', t = w ++ t' /\ Forall white w /\ text_of t' o.
Proof. exact (written_conforms fl o t). Qed.
Print Assumptions C76_written_text_partial.
(** The compact layout without leading spaces: two objects have the same text *)
Theorem C76_no_spaces_refuted : exists fl o o' t, expressible o /\ expressible o' /\ write fl o = Ok t /\ write fl o' = Ok t /\ o <> o'.
Proof.
  exists (mk_wf false true), (OArr [ONum 1; ONum 2]), (OArr [ONum 12]), (bs "[12]"). repeat split; discriminate.
Qed.
Print Assumptions C76_no_spaces_refuted.
(** The grammar tells objects apart: a text with a name that needs an escape, a string with all kinds of bytes and a
    dictionary whose keys are not in order *)
Example C76_case : expressible (ODict [(bs "A", OName (bs "x y")); (bs "Type", OStr false [13; 40; 200])]) /\
  write (mk_wf false false) (ODict [(bs "A", OName (bs "x y")); (bs "Type", OStr false [13; 40; 200])])
  = Ok (bs "<</Type(\r\(" ++ [200] ++ bs ")/A/x#20y>>") /\
  text_of (bs "<</Type(\r\(" ++ [200] ++ bs ")/A/x#20y>>") (ODict [(bs "A", OName (bs "x y")); (bs "Type", OStr false [13; 40; 200])]).
Proof.
  assert (E : expressible (ODict [(bs "A", OName (bs "x y")); (bs "Type", OStr false [13; 40; 200])])).
  { cbn [expressible]. split; [repeat constructor|]. repeat split; unfold bytes_ok, is_byte; repeat constructor; cbn; lia. }
  split; [exact E|].
  assert (W : write (mk_wf false false) (ODict [(bs "A", OName (bs "x y")); (bs "Type", OStr false [13; 40; 200])])
    = Ok (bs "<</Type(\r\(" ++ [200] ++ bs ")/A/x#20y>>")) by (vm_compute; reflexivity).
  split; [exact W|].
  destruct (C76_written_text_partial (mk_wf false false) _ _ (or_intror eq_refl) E W) as (w & t' & T & Wh & X).
  destruct w as [|c w]; [change ([] ++ t') with t' in T; rewrite T; exact X|].
  exfalso. cbn in T. injection T as <- _. apply Forall_inv in Wh. cbn in Wh. lia.
Qed.
