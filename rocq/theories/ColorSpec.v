(** What colours are, independent of the code. *)
From Coq Require Import String QArith.
From Verif Require Import Base.
Local Open Scope Z_scope.

(** A colour of a device space: a tint of gray, light of three kinds, four inks *)
Inductive shade := Gray (g : Q) | Rgb (r g b : Q) | Cmyk (c m y k : Q).
Definition parts (s : shade) : list Q := match s with Gray g => [g] | Rgb r g b => [r; g; b] | Cmyk c m y k => [c; m; y; k] end.
Definition within (q : Q) : Prop := (0 <= q /\ q <= 1)%Q.
Definition proper (s : shade) : Prop := Forall within (parts s).
(** Equal values *)
Definition alike (a b : shade) : Prop :=
  match a, b with
  | Gray _, Gray _ | Rgb _ _ _, Rgb _ _ _ | Cmyk _ _ _ _, Cmyk _ _ _ _ => Forall2 Qeq (parts a) (parts b)
  | _, _ => False
  end.
(** The light that is seen: an ink lets through the part of the light which it does not take, and black takes the same of all *)
Definition light (s : shade) : Q * Q * Q :=
  match s with
  | Gray g => (g, g, g)
  | Rgb r g b => (r, g, b)
  | Cmyk c m y k => ((1 - c) * (1 - k), (1 - m) * (1 - k), (1 - y) * (1 - k))%Q
  end.
Definition seen (s : shade) (r g b : Q) : Prop := let '(x, y, z) := light s in (x == r /\ y == g /\ z == b)%Q.
(** As much black as can be: another ink is left out, and all if there is only black *)
Definition most_black (s : shade) : Prop :=
  match s with Cmyk c m y k => (c == 0 \/ m == 0 \/ y == 0)%Q /\ ((k == 1)%Q -> (c == 0 /\ m == 0 /\ y == 0)%Q) | _ => True end.
(** ISO 32000-1, 10.3.2 to 10.3.5: what the standard says *)
Definition std_gray (r g b : Q) : Q := ((3 # 10) * r + (59 # 100) * g + (11 # 100) * b)%Q.
Definition std_light (c k : Q) : Q := (1 - (if Qle_bool 1 (c + k) then 1 else c + k))%Q.

(** ** Texts *)
(** Two hexadecimal digits, and a list of such pairs *)
Definition hex1 (c v : Z) : Prop := 48 <= c <= 57 /\ v = c - 48 \/ 65 <= c <= 70 /\ v = c - 55 \/ 97 <= c <= 102 /\ v = c - 87.
Inductive hexes : list Z -> list Z -> Prop :=
| H_nil : hexes [] []
| H_pair a b x y t l : hexes t l -> hex1 a x -> hex1 b y -> hexes (a :: b :: t) (x * 16 + y :: l).
(** The digits after the point *)
Inductive frac : list Z -> Q -> Prop :=
| F_nil : frac [] 0
| F_digit d t q : 0 <= d <= 9 -> frac t q -> frac (48 + d :: t) ((inject_Z d + q) / 10)%Q.
(** Letters in either case *)
Definition letter_case (a b : Z) : Prop := a = b \/ 97 <= a <= 122 /\ b = a - 32.
(** The names of colours of the X Window System together with those of CSS, without the numbered ones; where they differ (gray, green,
    maroon, purple) those of X *)
Definition colors : list (list Z * (Z * Z * Z)) := [
  (bs "aliceblue", (240, 248, 255)); (bs "antiquewhite", (250, 235, 215)); (bs "aqua", (0, 255, 255));
  (bs "aquamarine", (127, 255, 212)); (bs "azure", (240, 255, 255)); (bs "beige", (245, 245, 220));
  (bs "bisque", (255, 228, 196)); (bs "black", (0, 0, 0)); (bs "blanchedalmond", (255, 235, 205));
  (bs "blue", (0, 0, 255)); (bs "blueviolet", (138, 43, 226)); (bs "brown", (165, 42, 42));
  (bs "burlywood", (222, 184, 135)); (bs "cadetblue", (95, 158, 160)); (bs "chartreuse", (127, 255, 0));
  (bs "chocolate", (210, 105, 30)); (bs "coral", (255, 127, 80)); (bs "cornflowerblue", (100, 149, 237));
  (bs "cornsilk", (255, 248, 220)); (bs "crimson", (220, 20, 60)); (bs "cyan", (0, 255, 255));
  (bs "darkblue", (0, 0, 139)); (bs "darkcyan", (0, 139, 139)); (bs "darkgoldenrod", (184, 134, 11));
  (bs "darkgray", (169, 169, 169)); (bs "darkgreen", (0, 100, 0)); (bs "darkgrey", (169, 169, 169));
  (bs "darkkhaki", (189, 183, 107)); (bs "darkmagenta", (139, 0, 139)); (bs "darkolivegreen", (85, 107, 47));
  (bs "darkorange", (255, 140, 0)); (bs "darkorchid", (153, 50, 204)); (bs "darkred", (139, 0, 0));
  (bs "darksalmon", (233, 150, 122)); (bs "darkseagreen", (143, 188, 143)); (bs "darkslateblue", (72, 61, 139));
  (bs "darkslategray", (47, 79, 79)); (bs "darkslategrey", (47, 79, 79)); (bs "darkturquoise", (0, 206, 209));
  (bs "darkviolet", (148, 0, 211)); (bs "deeppink", (255, 20, 147)); (bs "deepskyblue", (0, 191, 255));
  (bs "dimgray", (105, 105, 105)); (bs "dimgrey", (105, 105, 105)); (bs "dodgerblue", (30, 144, 255));
  (bs "firebrick", (178, 34, 34)); (bs "floralwhite", (255, 250, 240)); (bs "forestgreen", (34, 139, 34));
  (bs "fuchsia", (255, 0, 255)); (bs "gainsboro", (220, 220, 220)); (bs "ghostwhite", (248, 248, 255));
  (bs "gold", (255, 215, 0)); (bs "goldenrod", (218, 165, 32)); (bs "gray", (190, 190, 190));
  (bs "green", (0, 255, 0)); (bs "greenyellow", (173, 255, 47)); (bs "grey", (190, 190, 190));
  (bs "honeydew", (240, 255, 240)); (bs "hotpink", (255, 105, 180)); (bs "indianred", (205, 92, 92));
  (bs "indigo", (75, 0, 130)); (bs "ivory", (255, 255, 240)); (bs "khaki", (240, 230, 140));
  (bs "lavender", (230, 230, 250)); (bs "lavenderblush", (255, 240, 245)); (bs "lawngreen", (124, 252, 0));
  (bs "lemonchiffon", (255, 250, 205)); (bs "lightblue", (173, 216, 230)); (bs "lightcoral", (240, 128, 128));
  (bs "lightcyan", (224, 255, 255)); (bs "lightgoldenrod", (238, 221, 130)); (bs "lightgoldenrodyellow", (250, 250, 210));
  (bs "lightgray", (211, 211, 211)); (bs "lightgreen", (144, 238, 144)); (bs "lightgrey", (211, 211, 211));
  (bs "lightpink", (255, 182, 193)); (bs "lightsalmon", (255, 160, 122)); (bs "lightseagreen", (32, 178, 170));
  (bs "lightskyblue", (135, 206, 250)); (bs "lightslategray", (119, 136, 153)); (bs "lightslategrey", (119, 136, 153));
  (bs "lightsteelblue", (176, 196, 222)); (bs "lightyellow", (255, 255, 224)); (bs "lime", (0, 255, 0));
  (bs "limegreen", (50, 205, 50)); (bs "linen", (250, 240, 230)); (bs "magenta", (255, 0, 255));
  (bs "maroon", (176, 48, 96)); (bs "mediumaquamarine", (102, 205, 170)); (bs "mediumblue", (0, 0, 205));
  (bs "mediumorchid", (186, 85, 211)); (bs "mediumpurple", (147, 112, 219)); (bs "mediumseagreen", (60, 179, 113));
  (bs "mediumslateblue", (123, 104, 238)); (bs "mediumspringgreen", (0, 250, 154)); (bs "mediumturquoise", (72, 209, 204));
  (bs "mediumvioletred", (199, 21, 133)); (bs "midnightblue", (25, 25, 112)); (bs "mintcream", (245, 255, 250));
  (bs "mistyrose", (255, 228, 225)); (bs "moccasin", (255, 228, 181)); (bs "navajowhite", (255, 222, 173));
  (bs "navy", (0, 0, 128)); (bs "oldlace", (253, 245, 230)); (bs "olive", (128, 128, 0));
  (bs "olivedrab", (107, 142, 35)); (bs "orange", (255, 165, 0)); (bs "orangered", (255, 69, 0));
  (bs "orchid", (218, 112, 214)); (bs "palegoldenrod", (238, 232, 170)); (bs "palegreen", (152, 251, 152));
  (bs "paleturquoise", (175, 238, 238)); (bs "palevioletred", (219, 112, 147)); (bs "papayawhip", (255, 239, 213));
  (bs "peachpuff", (255, 218, 185)); (bs "peru", (205, 133, 63)); (bs "pink", (255, 192, 203));
  (bs "plum", (221, 160, 221)); (bs "powderblue", (176, 224, 230)); (bs "purple", (160, 32, 240));
  (bs "red", (255, 0, 0)); (bs "rosybrown", (188, 143, 143)); (bs "royalblue", (65, 105, 225));
  (bs "saddlebrown", (139, 69, 19)); (bs "salmon", (250, 128, 114)); (bs "sandybrown", (244, 164, 96));
  (bs "seagreen", (46, 139, 87)); (bs "seashell", (255, 245, 238)); (bs "sienna", (160, 82, 45));
  (bs "silver", (192, 192, 192)); (bs "skyblue", (135, 206, 235)); (bs "slateblue", (106, 90, 205));
  (bs "slategray", (112, 128, 144)); (bs "slategrey", (112, 128, 144)); (bs "snow", (255, 250, 250));
  (bs "springgreen", (0, 255, 127)); (bs "steelblue", (70, 130, 180)); (bs "tan", (210, 180, 140));
  (bs "teal", (0, 128, 128)); (bs "thistle", (216, 191, 216)); (bs "tomato", (255, 99, 71));
  (bs "turquoise", (64, 224, 208)); (bs "violet", (238, 130, 238)); (bs "wheat", (245, 222, 179));
  (bs "white", (255, 255, 255)); (bs "whitesmoke", (245, 245, 245)); (bs "yellow", (255, 255, 0));
  (bs "yellowgreen", (154, 205, 50))].

(** ** Sampled functions: ISO 32000-1, 7.10.2, with one input and two samples of a byte *)
Record fn := mk_fn { f_bits : Z; f_decode : list Z; f_domain : list Z; f_encode : list Z; f_range : list Z; f_size : list Z; f_bytes : list Z }.
(** The outputs are as many as there are pairs in the range; the other entries fit *)
Definition outputs (f : fn) : nat := Nat.div2 (length (f_range f)).
Definition fn_ok (f : fn) : Prop :=
  f_bits f = 8 /\ f_domain f = [0; 1] /\ f_encode f = [0; 1] /\ f_size f = [2] /\ length (f_decode f) = (2 * outputs f)%nat /\ length (f_bytes f) = (2 * outputs f)%nat.
Definition at_ (l : list Z) (i : nat) : Q := inject_Z (nth i l 0).
(** The output [j] for the input [x] *)
Definition apply (f : fn) (j : nat) (x : Q) : Q :=
  let s := ((1 - x) * at_ (f_bytes f) j + x * at_ (f_bytes f) (outputs f + j))%Q in
  (at_ (f_decode f) (2 * j) + s / 255 * (at_ (f_decode f) (2 * j + 1) - at_ (f_decode f) (2 * j)))%Q.
(** Half of full tint, and so on: the function gives the colour times the tint, with an error of one part of 255 *)
Definition tints (f : fn) (comps : list Q) : Prop :=
  forall j c x, nth_error comps j = Some c -> within x -> (apply f j x <= c * x /\ c * x <= apply f j x + (1 # 255))%Q.
