(** What the CIDs of a subset of a font are: the glyphs that were asked for, numbered from 1 in the order in which they first appear. *)
From Verif Require Import Base CodeModel FontModel.
Local Open Scope Z_scope.

(** The requests for glyphs that were not asked for before *)
Definition asked (gid : Z) (h : list (Z * list Z)) : bool := existsb (fun q => fst q =? gid) h.
Fixpoint firsts_after (seen h : list (Z * list Z)) : list (Z * list Z) :=
  match h with
  | [] => []
  | q :: r => if asked (fst q) seen then firsts_after (seen ++ [q]) r else q :: firsts_after (seen ++ [q]) r
  end.
Definition firsts (h : list (Z * list Z)) : list (Z * list Z) := firsts_after [] h.
(** Numbers from [n] on *)
Fixpoint number_from {A : Type} (n : Z) (l : list A) : list (Z * A) := match l with [] => [] | x :: r => (n, x) :: number_from (n + 1) r end.
(** The code of the same number in as few bytes as possible *)
Definition least_code (id : Z) (u : code) : Prop := c_num u = id /\ 1 <= c_size u /\ 256 ^ (c_size u - 1) <= id < 256 ^ c_size u.
(** The code that a glyph has in the encoding: its number in a dynamic encoding, otherwise the code of the text that it was first asked for *)
Definition code_of_glyph (enc : option (list Z -> option code)) (id : Z) (cps : list Z) (u : code) : Prop :=
  match enc with None => least_code id u | Some look => look cps = Some u end.
(** The fonts that arise from a font by requests, and from a new one *)
Inductive grows (enc : option (list Z -> option code)) (f0 : font) : font -> list (Z * list Z) -> Prop :=
| G_same : grows enc f0 f0 []
| G_add f h gid cps f' c : grows enc f0 f h -> add_gid enc f gid cps = Ok (f', c) -> grows enc f0 f' (h ++ [(gid, cps)]).
Definition history (enc : option (list Z -> option code)) (f : font) (h : list (Z * list Z)) : Prop := grows enc new_font f h.
(** There are fewer than 2^32 glyphs *)
Definition countable (f : font) : Prop := Z.of_nat (length (f_gids f)) < 4294967296.
(** A text of which no two characters share a glyph *)
Definition told_apart (gid_of : Z -> option Z) (text : list Z) : Prop := forall a b g, In a text -> In b text -> gid_of a = Some g -> gid_of b = Some g -> a = b.
(** The requests for a text *)
Definition asks (gid_of : Z -> option Z) (h : list (Z * list Z)) (text : list Z) : Prop := Forall2 (fun q cp => gid_of cp = Some (fst q) /\ snd q = [cp]) h text.
