(** The widths of the codes of a standard font, by the standard: 9.6.2, table 111 *)
From Coq Require Import String QArith.
From Verif Require Import Base TokModel LinkSpec ColorModel.
Local Open Scope Z_scope.

(** The width in thousandths that an array gives to a code: the element at the distance of the code from the first *)
Definition array_gives (first : Z) (l : list obj) (c : Z) (w : Q) : Prop :=
  exists o q, 0 <= c - first /\ nth_error l (Z.to_nat (c - first)) = Some o /\ real_of o = Some q /\ (w == q / 1000)%Q.
(** Without one, the glyph of the character that the encoding gives to the code has its width in the font *)
Definition font_gives (glyphs : list (Z * Z)) (widths : list Z) (cp : Z) (w : Q) : Prop :=
  exists g z, In (cp, g) glyphs /\ nth_error widths (Z.to_nat g) = Some z /\ (w == inject_Z z / 1000)%Q.
