(** The line ends of cross-reference entries *)
From Coq Require Import String.
From Verif Require Import Base TokModel WriteModel DateModel ListModel XrefModel XrefSpec TokProofs XrefProofs XrefReadProofs.
Local Open Scope Z_scope.

(** The three line ends of the standard *)
Lemma entry_line_ends magic e eol : fits magic e -> 0 <= magic -> In eol [[32; 13]; [32; 10]; [13; 10]] ->
  scan_entry magic (firstn 18 (entry_text e) ++ eol) = Ok (as_read magic e).
Proof.
  intros F M IE.
  assert (H : forall n g t, 0 <= n < 10 ^ 10 -> 0 <= g < 10 ^ 5 -> t = 102 \/ t = 110 ->
    exists s1 s2, firstn 18 (pad0 10 n ++ 32 :: pad0 5 g ++ [32; t; 32; 10]) = pad0 10 n ++ 32 :: pad0 5 g ++ [32; t] /\
    scan_uint 10 64 (c_str ((pad0 10 n ++ 32 :: pad0 5 g ++ [32; t]) ++ eol)) = Some (n, s1) /\ scan_uint 5 32 s1 = Some (g, s2) /\ skip_space s2 = t :: eol).
  { intros n g t Hn Hg Ht. destruct (pad0_spec 10 n ltac:(lia) Hn) as (A1 & A2 & A3).
    destruct (pad0_spec 5 g ltac:(lia) Hg) as (B1 & B2 & B3).
    assert (NZ : forall l, digits l -> Forall (fun c => c <> 0) l).
    { intros l D. eapply Forall_impl; [|exact D]. intros c C. apply digit_char in C. lia. }
    exists (32 :: pad0 5 g ++ 32 :: t :: eol), (32 :: t :: eol). split; [|split; [|split]].
    - replace (pad0 10 n ++ 32 :: pad0 5 g ++ [32; t; 32; 10]) with ((pad0 10 n ++ 32 :: pad0 5 g ++ [32; t]) ++ [32; 10]) by (rewrite <- !app_assoc; cbn [app]; rewrite <- app_assoc; reflexivity).
      rewrite firstn_app. assert (L : length (pad0 10 n ++ 32 :: pad0 5 g ++ [32; t]) = 18%nat) by (rewrite app_length; cbn [length]; rewrite app_length; cbn [length]; lia).
      rewrite L, Nat.sub_diag. change (firstn 0 [32; 10]) with (@nil Z). rewrite app_nil_r. rewrite firstn_all2 by lia. reflexivity.
    - assert (c_str ((pad0 10 n ++ 32 :: pad0 5 g ++ [32; t]) ++ eol) = pad0 10 n ++ 32 :: pad0 5 g ++ 32 :: t :: eol) as ->.
      { rewrite <- app_assoc. cbn [app]. rewrite <- app_assoc. cbn [app]. rewrite c_str_app by auto. f_equal. cbn [c_str]. change (32 =? 0) with false. cbn match. f_equal.
        rewrite c_str_app by auto. f_equal. cbn [c_str]. change (32 =? 0) with false. cbn match. f_equal.
        destruct (Z.eqb_spec t 0); [lia|]. f_equal. destruct IE as [<-|[<-|[<-|[]]]]; reflexivity. }
      rewrite <- A2 at 1. rewrite scan_uint_digits; try easy; try (rewrite A3; lia). { rewrite A3. reflexivity. } { destruct (pad0 10 n); easy. }
    - rewrite skip_space_one. rewrite <- B2 at 1. rewrite scan_uint_digits; try easy; try (rewrite B3; lia). { rewrite B3. reflexivity. } { destruct (pad0 5 g); easy. }
    - destruct Ht as [->| ->]; reflexivity. }
  rewrite entry_text_shape. unfold scan_entry. destruct e as [n g|n g]; cbn [fits] in F; cbn [as_read].
  - destruct F as [Fn Fg]. destruct (H n g 102 Fn Fg ltac:(lia)) as (s1 & s2 & -> & -> & -> & ->). destruct IE as [<-|[<-|[<-|[]]]]; reflexivity.
  - destruct F as (Fn & Fg & FM). destruct (H n g 110 Fn Fg ltac:(lia)) as (s1 & s2 & -> & -> & -> & ->).
    assert (E : u64 (n + magic) = n + magic) by (unfold u64; apply Z.mod_small; lia).
    destruct IE as [<-|[<-|[<-|[]]]]; cbn [negb check_eol Z.eqb Pos.eqb orb andb]; rewrite E; (destruct (Z.ltb_spec (2 ^ 63 - 1) (n + magic)); [lia|reflexivity]).
Qed.
