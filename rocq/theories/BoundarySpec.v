(** Lexical conventions of ISO 32000-1, 7.2, independent of the code. *)
From Coq Require Import String.
From Verif Require Import Base.
Local Open Scope Z_scope.

(** Table 1: white space; Table 2: delimiters; all other characters are regular *)
Definition white_chars : list Z := [0; 9; 10; 12; 13; 32].
Definition delim_chars : list Z := bs "()<>[]{}/%".
Definition regular_char (c : Z) : Prop := ~ In c white_chars /\ ~ In c delim_chars.
Definition eol_char (c : Z) : Prop := c = 10 \/ c = 13.

(** White space and comments *)
Inductive blank : list Z -> Prop :=
| blank_nil : blank []
| blank_white c b : In c white_chars -> blank b -> blank (c :: b)
| blank_comment t e b : Forall (fun c => ~ eol_char c) t -> eol_char e -> blank b -> blank (37 :: t ++ e :: b).
(** nothing but white space and comments, the last comment possibly unterminated *)
Definition only_blank (l : list Z) : Prop :=
  exists b t, blank b /\ (l = b \/ (l = b ++ 37 :: t /\ Forall (fun c => ~ eol_char c) t)).

(** what may follow a regular token *)
Definition ends_token (k : list Z) : Prop := match k with [] => True | c :: _ => ~ regular_char c end.
(** a comment right after a token is white space too: the text from its end on *)
Inductive past_comment : list Z -> list Z -> Prop :=
| pc_none k : match k with 37 :: _ => False | _ => True end -> past_comment k k
| pc_eol t e k : Forall (fun c => ~ eol_char c) t -> eol_char e -> past_comment (37 :: t ++ e :: k) (e :: k)
| pc_end t : Forall (fun c => ~ eol_char c) t -> past_comment (37 :: t) [].

(** The token at the start of a text that starts with no white space or comment, and the text after it.
    [buf] bounds the length of a token. *)
Inductive token_at {T} (lit lparen rparen lbrace rbrace lang rang dlang drang lsq rsq slash : T) (buf : nat)
  : list Z -> T * list Z -> list Z -> Prop :=
| ta_regular t k rest : t <> [] -> Forall regular_char t -> (length t < buf)%nat -> ends_token k -> past_comment k rest ->
    token_at lit lparen rparen lbrace rbrace lang rang dlang drang lsq rsq slash buf (t ++ k) (lit, t) rest
(** not the standard: a run of [buf] characters ends the token wherever it is *)
| ta_long t k : Forall regular_char t -> length t = buf ->
    token_at lit lparen rparen lbrace rbrace lang rang dlang drang lsq rsq slash buf (t ++ k) (lit, t) k
| ta_single c ty k :
    In (c, ty) [(40, lparen); (41, rparen); (91, lsq); (93, rsq); (123, lbrace); (125, rbrace); (47, slash)] ->
    token_at lit lparen rparen lbrace rbrace lang rang dlang drang lsq rsq slash buf (c :: k) (ty, [c]) k
| ta_double c ty k : In (c, ty) [(60, dlang); (62, drang)] ->
    token_at lit lparen rparen lbrace rbrace lang rang dlang drang lsq rsq slash buf (c :: c :: k) (ty, [c; c]) k
| ta_angle c ty d k : In (c, ty) [(60, lang); (62, rang)] -> d <> c ->
    token_at lit lparen rparen lbrace rbrace lang rang dlang drang lsq rsq slash buf (c :: d :: k) (ty, [c]) (d :: k)
(** not the standard: an angle bracket as last character is a literal *)
| ta_angle_end c : In c [60; 62] ->
    token_at lit lparen rparen lbrace rbrace lang rang dlang drang lsq rsq slash buf [c] (lit, [c]) [].
