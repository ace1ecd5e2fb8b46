(** What the boxes of pages are, and where a page is put as a form *)
From Coq Require Import String QArith.
From Verif Require Import Base TokModel OwnSpec LinkSpec AnnotSpec TokProofs CMapSpec ContentsSpec.
Local Open Scope Z_scope.

(** ISO 32000-1, table 30 and 14.11.2: the media box and the crop box are inherited, the crop box is the media box where there is none; the others are not
    inherited, and are the crop box where there is none. The corners of the box: *)
Inductive media_is (h : document) (d : list (list Z * obj)) : Q -> Q -> Q -> Q -> Prop :=
| MBox l a b c e : inherits h (bs "MediaBox") d (Some (OArr l)) -> rectangle l a b c e -> media_is h d a b c e.
Inductive crop_is (h : document) (d : list (list Z * obj)) : Q -> Q -> Q -> Q -> Prop :=
| CBox l a b c e : inherits h (bs "CropBox") d (Some (OArr l)) -> rectangle l a b c e -> crop_is h d a b c e
| CDefault a b c e : inherits h (bs "CropBox") d None -> media_is h d a b c e -> crop_is h d a b c e.
Inductive other_is (h : document) (k : list Z) (d : list (list Z * obj)) : Q -> Q -> Q -> Q -> Prop :=
| OBox l a b c e : entry h d k (OArr l) -> rectangle l a b c e -> other_is h k d a b c e
| ODefault a b c e : (forall v, ~ entry h d k v) -> crop_is h d a b c e -> other_is h k d a b c e.
(** A rectangle with the left end [x], the lower end [y], a width and a height has these corners *)
Definition spans (x y w h a b c e : Q) : Prop := ends a c x (x + w)%Q /\ ends b e y (y + h)%Q.
(** A coordinate between two ends *)
Definition within (a c u : Q) : Prop := ((a <= u /\ u <= c) \/ (c <= u /\ u <= a))%Q.
(** Table 30: the rotation is clockwise by a multiple of 90; the angle counterclockwise that is the same turn *)
Definition same_turn (clockwise counter : Z) : Prop := exists k, counter = - clockwise + 360 * k.

(** Where a point of the page goes: the page is shown turned clockwise, with the lower left corner of what is shown at the origin *)
Inductive placed (x y w h : Q) : Z -> Q * Q -> Q * Q -> Prop :=
| Upright u v r : r mod 360 = 0 -> placed x y w h r (u, v) (u - x, v - y)%Q
| Right u v r : r mod 360 = 90 -> placed x y w h r (u, v) (v - y, x + w - u)%Q
| Over u v r : r mod 360 = 180 -> placed x y w h r (u, v) (x + w - u, y + h - v)%Q
| Left u v r : r mod 360 = 270 -> placed x y w h r (u, v) (y + h - v, u - x)%Q.
(** The rotation of the page, not more than a turn *)
Inductive rotated (h : document) (d : list (list Z * obj)) : Z -> Prop :=
| RSome r : inherits h (bs "Rotate") d (Some (ONum r)) -> -360 <= r < 360 -> rotated h d r
| RNone : inherits h (bs "Rotate") d None -> rotated h d 0.
(** Cosine and sine of the turns, in degrees counterclockwise *)
Definition exact (turn : Z -> Q * Q) : Prop := forall a,
  (a mod 360 = 0 -> turn a = (1, 0)%Q) /\ (a mod 360 = 90 -> turn a = (0, 1)%Q) /\ (a mod 360 = 180 -> turn a = (-1 # 1, 0)%Q) /\ (a mod 360 = 270 -> turn a = (0, -1 # 1)%Q).

(** A stream with the instructions that ends with white space *)
Definition ended (is : list instr) (b : list Z) : Prop := exists a w, b = a ++ [w] /\ is_ws w = true /\ program_text is a.
(** The object has the stream, perhaps through objects that are references *)
Inductive leads (h : document) (st : Z * Z -> option (list Z)) : Z * Z -> list Z -> Prop :=
| Here r o b : h r = Some o -> (forall n g, o <> ORef n g) -> st r = Some b -> leads h st r b
| There r n g b : h r = Some (ORef n g) -> leads h st (n, g) b -> leads h st r b.
