(** Property C08: token boundaries. *)
From Coq Require Import String.
From Verif Require Import Base TokModel BoundarySpec BoundaryProofs.
Local Open Scope Z_scope.

(** Missing: runs of regular characters longer than the token buffer (4095 characters) are cut, and an angle
    bracket as the last character of the data is taken for a literal; [token_at] says so. *)
Theorem C08_next_token_partial buf inp : (1 <= buf)%nat ->
  (only_blank inp /\ tok buf inp = None) \/
  exists b k t rest, blank b /\ inp = b ++ k /\
    token_at TLit TLParen TRParen TLBrace TRBrace TLAng TRAng TDLAng TDRAng TLSq TRSq TSlash buf k t rest /\
    tok buf inp = Some (t, rest).
Proof. exact (next_token_spec buf inp). Qed.
Print Assumptions C08_next_token_partial.

Theorem C08_two_tokens buf b a w ws x k :
  blank b -> a <> [] -> Forall regular_char a -> (length a <= buf)%nat ->
  In w white_chars -> blank ws -> x <> [] -> Forall regular_char x -> (length x < buf)%nat -> ends_token k ->
  exists s1 rest, next_token buf (mk_tst [] (b ++ a ++ w :: ws ++ x ++ k)) = Some ((TLit, a), s1) /\
    next_token buf s1 = Some ((TLit, x), mk_tst [] rest) /\ past_comment k rest.
Proof. exact (two_tokens buf b a w ws x k). Qed.
Print Assumptions C08_two_tokens.

Theorem C08_long_token_refuted buf : (1 <= buf)%nat -> exists t, Forall regular_char t /\ (length t = buf + 1)%nat /\
  tok buf t = Some ((TLit, firstn buf t), skipn buf t).
Proof. exact (long_token_refuted buf). Qed.
Print Assumptions C08_long_token_refuted.

Theorem C08_angle_at_end_refuted : tok 4095 [62] = Some ((TLit, [62]), []) /\ tok 4095 [62; 32] = Some ((TRAng, [62]), [32]).
Proof. exact angle_end_refuted. Qed.
Print Assumptions C08_angle_at_end_refuted.

Example C08_case : tok 4095 (bs " %c" ++ [10] ++ bs "ab%x") = Some ((TLit, bs "ab"), []) /\
  tok 4095 (bs "<<a") = Some ((TDLAng, bs "<<"), bs "a") /\ blank (bs " %c" ++ [10]).
Proof.
  split; [vm_compute; reflexivity|]. split; [vm_compute; reflexivity|].
  apply blank_white; [cbn; auto 10|]. apply (blank_comment [99] 10 []); [repeat constructor; unfold eol_char; lia|left; reflexivity|constructor].
Qed.
