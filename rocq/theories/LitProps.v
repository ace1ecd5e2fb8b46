(** Property C75: literal strings are read as the standard defines them. *)
From Coq Require Import String.
From Verif Require Import Base TokModel ObjSpec LitSpec LitProofs.
Local Open Scope Z_scope.

(** Missing: backslash before a character without meaning, end of line other than a line feed, and short octal
    numbers before a parenthesis, for which the statement is false. *)
Theorem C75_literal_strings_partial l k : literal l -> Forall supported l -> chained supported_follow l ->
  parse default_params (40 :: text l ++ 41 :: k) = Ok (Some (OStr false (value l)), mk_tst [] k).
Proof. exact (literals_conform l k). Qed.
Print Assumptions C75_literal_strings_partial.

Definition wrong (l : list piece) : Prop := literal l /\ exists v s, parse default_params (40 :: text l ++ [41]) = Ok (Some (OStr false v), s) /\ v <> value l.
(** the string ends at the inner parenthesis *)
Theorem C75_octal_paren_refuted : wrong [Open; Octal [1]; Close; Plain 97].
Proof. split; [repeat split; cbn; auto with arith; repeat constructor; cbn; try lia; intuition lia|]. eexists. eexists. split; [vm_compute; reflexivity|discriminate]. Qed.
Print Assumptions C75_octal_paren_refuted.
Theorem C75_ignored_backslash_refuted : wrong [Other 113].
Proof. split; [repeat split; repeat constructor; cbn; intuition lia|]. eexists. eexists. split; [vm_compute; reflexivity|discriminate]. Qed.
Print Assumptions C75_ignored_backslash_refuted.
Theorem C75_continued_line_refuted : wrong [Plain 97; Continued [13; 10]; Plain 98].
Proof. split; [repeat split; repeat constructor; cbn; intuition lia|]. eexists. eexists. split; [vm_compute; reflexivity|discriminate]. Qed.
Print Assumptions C75_continued_line_refuted.
Theorem C75_end_of_line_refuted : wrong [Plain 97; Eol [13; 10]; Plain 98].
Proof. split; [repeat split; repeat constructor; cbn; intuition lia|]. eexists. eexists. split; [vm_compute; reflexivity|discriminate]. Qed.
Print Assumptions C75_end_of_line_refuted.

Definition sample : list piece := [Plain 97; Open; Plain 98; Open; Close; Close; Named 110 10; Octal [0; 5; 3]; Plain 48; Octal [5]; Plain 57; Continued [10]; Octal [7; 7; 7]].
Example C75_case : literal sample /\ Forall supported sample /\ chained supported_follow sample /\
  text sample = bs "a(b())\n\0530\59\" ++ [10] ++ bs "\777" /\ value sample = bs "a(b())" ++ [10] ++ bs "+0" ++ [5; 57; 255] /\
  parse default_params (bs "(" ++ text sample ++ bs ")/N") = Ok (Some (OStr false (value sample)), mk_tst [] (bs "/N")).
Proof.
  split; [repeat split; repeat constructor; cbn; intuition lia|]. split; [repeat constructor; discriminate|]. split; [repeat split|].
  split; [reflexivity|]. split; [vm_compute; reflexivity|vm_compute; reflexivity].
Qed.
