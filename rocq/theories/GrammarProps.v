(** Property C110: every text that stands for an object, with any white space and comments, is read as that object.
    [spelled], [blank], [can_follow], [left]: GrammarSpec.v. *)
From Coq Require Import String Permutation.
From Verif Require Import Base TokModel WriteModel DictProofs TokProofs ObjSpec LitSpec ConformSpec GrammarSpec GrammarProofs GrammarWriteProofs GrammarPropLemmas.
Local Open Scope Z_scope.

Theorem C110_spellings_read w t o k : blank w -> spelled default_params t o -> can_follow default_params t o k -> (S (inner o) <= 256)%nat ->
  exists s, parse default_params (w ++ t ++ k) = Ok (Some o, s) /\ left default_params s k.
Proof. exact (spellings_read w t o k). Qed.
Print Assumptions C110_spellings_read.

(** in a file: the object is followed by a keyword, which is the next token *)
Theorem C110_before_keyword w t o b x k : blank w -> spelled default_params t o -> (S (inner o) <= 256)%nat ->
  blank b -> b <> [] -> (t = [47] -> forall y, b <> 37 :: y) -> In x [bs "endobj"; bs "stream"; bs "startxref"; bs "trailer"; bs "obj"] ->
  (k = [] \/ exists c k', k = c :: k' /\ white c) ->
  exists s s', parse default_params (w ++ t ++ b ++ x ++ k) = Ok (Some o, s) /\ next_token 4095 s = Some ((TLit, x), s') /\ left default_params s' k.
Proof. exact (before_word w t o b x k). Qed.
Print Assumptions C110_before_keyword.

(** everything the writer writes is a spelling of its object, after white space *)
Theorem C110_written_spelled fl o t : flags_ok fl -> wf_obj default_params o -> write fl o = Ok t ->
  exists w t', t = w ++ t' /\ Forall white w /\ spelled default_params t' o.
Proof. exact (fun F W T => proj1 (write_wgood default_params ObjPropLemmas.buf20 fl F o W t T)). Qed.
Print Assumptions C110_written_spelled.

(** the grammar is unambiguous: a text stands for at most one object *)
Theorem C110_one_object t o o' : spelled default_params t o -> spelled default_params t o' -> (S (inner o) <= 256)%nat -> (S (inner o') <= 256)%nat -> o = o'.
Proof. exact (one_object t o o'). Qed.
Print Assumptions C110_one_object.

(** Texts of the standard that are left out because they are read wrongly: a plus sign is refused, an empty name takes the token
    after a comment, a token of more than 4095 bytes is cut and its rest read as something else. For literal strings see C75,
    for two integers at the end of the data C04. *)
Theorem C110_left_out_refuted :
  (parse default_params (bs "+5 ") = Err ENoNumber /\ parse default_params (bs "+1.5 ") = Err ENoNumber) /\
  (exists s, parse default_params (bs "/% a comment
5 ") = Ok (Some (OName (bs "5")), s)) /\
  (forall n, (4095 < n)%nat -> exists s, parse default_params (47 :: repeat 65 n ++ [32]) = Ok (Some (OName (repeat 65 4095)), s) /\
    tq s = [] /\ tin s = repeat 65 (n - 4095) ++ [32]).
Proof. exact (conj plus_refused (conj name_comment long_token)). Qed.
Print Assumptions C110_left_out_refuted.

(** A text with comments, missing and superfluous white space, keys out of order, escapes and an odd number of digits *)
Definition odd_text : list Z := bs "<</B[1%x
-2.50(a\)b)<4 8e>]/#41b 012% y
0 R>>".
Definition odd_object : obj :=
  ODict [(bs "Ab", ORef 12 0); (bs "B", OArr [ONum 1; OReal (-250) 2; OStr false (bs "a)b"); OStr true [72; 224]])].
Example C110_case_spelled : spelled default_params odd_text odd_object.
Proof.
  assert (LIM : forall n, (n <= 20)%nat -> (n <= rbuf default_params)%nat) by (intros n H; change (rbuf default_params) with 4095%nat; lia).
  assert (PL : forall c, is_regular c = true -> plain c) by (intros c H; apply plain_iff; exact H).
  assert (NP : forall c, is_regular c = false -> ~ plain c) by (intros c H Q; apply plain_iff in Q; congruence).
  unfold odd_text, odd_object.
  apply (sp_dict default_params (bs "/B[1%x
-2.50(a\)b)<4 8e>]/#41b 012% y
0 R") [(bs "B", OArr [ONum 1; OReal (-250) 2; OStr false (bs "a)b"); OStr true [72; 224]]); (bs "Ab", ORef 12 0)]).
  - cbn [flat_map fst snd app].
    apply (row_cons default_params [] (bs "/B") (OName (bs "B")) (bs "[1%x
-2.50(a\)b)<4 8e>]/#41b 012% y
0 R")).
    { constructor. }
    { apply sp_name; [|apply LIM; cbn; lia]. apply name_char; [apply PL; reflexivity|discriminate|constructor]. }
    { cbn. split; [intros _; apply NP; reflexivity|discriminate]. }
    apply (row_cons default_params [] (bs "[1%x
-2.50(a\)b)<4 8e>]") (OArr [ONum 1; OReal (-250) 2; OStr false (bs "a)b"); OStr true [72; 224]]) (bs "/#41b 012% y
0 R")).
    { constructor. }
    { apply (sp_arr default_params (bs "1%x
-2.50(a\)b)<4 8e>")).
      apply (row_cons default_params [] (bs "1") (ONum 1) (bs "%x
-2.50(a\)b)<4 8e>")).
      { constructor. }
      { apply (sp_int default_params [] 1 [49]); [left; auto|discriminate|repeat constructor; lia|cbn; lia|apply LIM; cbn; lia]. }
      { cbn. split; [intros _; apply NP; reflexivity|discriminate]. }
      apply (row_cons default_params (bs "%x
") (bs "-2.50") (OReal (-250) 2) (bs "(a\)b)<4 8e>")).
      { apply (blank_comment (bs "x") 10 []); [cbn; lia|cbn; lia|auto|constructor]. }
      { apply (sp_real default_params [45] (-1) [50] [53; 48]); [right; auto|discriminate|repeat constructor; unfold digit; lia|repeat constructor; unfold digit; lia|apply LIM; cbn; lia]. }
      { cbn. split; [intros _; apply NP; reflexivity|discriminate]. }
      apply (row_cons default_params [] (bs "(a\)b)") (OStr false (bs "a)b")) (bs "<4 8e>")).
      { constructor. }
      { apply (sp_lit default_params [Plain 97; Named 41 41; Plain 98]).
        - split; [|split]; [repeat constructor; cbn; intuition discriminate|cbn; tauto|reflexivity].
        - repeat constructor.
        - cbn. tauto. }
      { cbn. split; [|discriminate]. intros [E|(x & c & E & Pc)]; [discriminate E|]. exfalso.
        assert (c = 41) as -> by (apply (f_equal (fun l => last l 0)) in E; cbv beta in E; rewrite last_last in E; symmetry; exact E).
        destruct Pc as [_ Pc]. apply Pc. cbn. tauto. }
      apply (row_cons default_params [] (bs "<4 8e>") (OStr true [72; 224]) []).
      { constructor. }
      { apply (sp_hex default_params (bs "4 8e") (bs "48e")).
        - apply (hexes_digit 52 4); [left; lia|]. apply hexes_white; [cbn; tauto|]. apply (hexes_digit 56 8); [left; lia|].
          apply (hexes_digit 101 14); [right; right; lia|]. constructor.
        - apply (hex_pair 52 56 4 8); [left; lia|left; lia|]. apply (hex_last 101 14). right; right; lia. }
      { exact Logic.I. }
      constructor. constructor. }
    { cbn. split; [intros _; apply NP; reflexivity|discriminate]. }
    apply (row_cons default_params [] (bs "/#41b") (OName (bs "Ab")) (bs " 012% y
0 R")).
    { constructor. }
    { apply sp_name; [|apply LIM; cbn; lia]. apply (name_code 52 49 4 1 (bs "b") (bs "b")); [left; lia|left; lia|].
      apply name_char; [apply PL; reflexivity|discriminate|constructor]. }
    { cbn. split; [intros _; apply NP; reflexivity|discriminate]. }
    apply (row_cons default_params (bs " ") (bs "012% y
0 R") (ORef 12 0) []).
    { apply blank_white; [cbn; tauto|constructor]. }
    { apply (sp_ref default_params [48; 49; 50] [48] [37; 32; 121; 10] [32]); try discriminate; try reflexivity; try (repeat (apply Forall_cons; [unfold digit; lia|]); apply Forall_nil); try (apply LIM; cbn; lia).
      - apply (blank_comment [32; 121] 10 []); [cbn; lia|cbn; lia|auto|constructor].
      - apply blank_white; [cbn; tauto|constructor]. }
    { exact Logic.I. }
    constructor. constructor.
  - cbn. repeat constructor; cbn; intuition discriminate.
  - apply perm_swap.
  - repeat constructor.
Qed.
Example C110_case : match parse default_params (bs "% start
 " ++ odd_text ++ bs "endobj") with Ok (Some o, s) => o = odd_object /\ tin s = bs "endobj" | _ => False end.
Proof. vm_compute. split; reflexivity. Qed.
