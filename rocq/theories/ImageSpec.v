(** What images show: vocabulary *)
From Coq Require Import String.
From Verif Require Import Base TokModel OwnModel ImageModel.
Local Open Scope Z_scope.

Definition byte_at (l : list Z) (i : Z) : option Z := nth_error l (Z.to_nat i).
Definition three (a b c : option Z) : option (Z * Z * Z) :=
  match a, b, c with Some x, Some y, Some z => Some (x, y, z) | _, _, _ => None end.
(** The colour of a pixel of a buffer with rows of [size] bytes: red, green, blue *)
Definition pixel (f : pixfmt) (size : Z) (buf : list Z) (x y : Z) : option (Z * Z * Z) :=
  let at_ k n := byte_at buf (y * size + n * x + k) in
  match f with
  | FGray => three (at_ 0 1) (at_ 0 1) (at_ 0 1)
  | FRgb => three (at_ 0 3) (at_ 1 3) (at_ 2 3)
  | FBgr => three (at_ 2 3) (at_ 1 3) (at_ 0 3)
  | FRgba => three (at_ 0 4) (at_ 1 4) (at_ 2 4)
  | FBgra => three (at_ 2 4) (at_ 1 4) (at_ 0 4)
  | FUnknown => None
  end.
(** How opaque it is *)
Definition opacity (f : pixfmt) (size : Z) (buf : list Z) (x y : Z) : option Z :=
  match f with FRgba | FBgra => byte_at buf (y * size + 4 * x + 3) | _ => Some 255 end.
(** The bytes of a pixel *)
Definition bytes_of (f : pixfmt) : Z := match f with FGray => 1 | FRgb | FBgr => 3 | FRgba | FBgra => 4 | FUnknown => 0 end.
(** The rows of bitmaps begin at multiples of four bytes. *)
Definition aligned (n : Z) : Z := (n + 3) / 4 * 4.
(** The size of the rows: the one that is given, or the usual one. *)
Definition stride (f : pixfmt) (w row : Z) : Z := if row <? 0 then aligned (bytes_of f * w) else row.

(** ISO 32000 8.9.5: the samples of an image with eight bits for each component, row after row without gaps *)
Definition entry_is (look : Z * Z -> option obj) (img : image) (k : list Z) (v : obj) : Prop := dict_find look k (i_dict img) = Some v.
Definition eight_bits (look : Z * Z -> option obj) (img : image) (w h : Z) : Prop :=
  entry_is look img (bs "Width") (ONum w) /\ entry_is look img (bs "Height") (ONum h) /\ entry_is look img (bs "BitsPerComponent") (ONum 8).
Definition sample (n w : Z) (data : list Z) (x y c : Z) : option Z := byte_at data ((y * w + x) * n + c).
(** What a decoding array does with a sample: it is kept, or turned around. *)
Inductive decoding (look : Z * Z -> option obj) (img : image) : (Z -> Z) -> Prop :=
| Kept : dict_find look (bs "Decode") (i_dict img) = None -> decoding look img (fun s => s)
| Turned n : entry_is look img (bs "Decode") (OArr (concat (repeat [ONum 1; ONum 0] n))) -> decoding look img (fun s => 255 - s).
(** The pixel at a place has this colour. *)
Inductive shows (look : Z * Z -> option obj) (img : image) (x y : Z) : Z * Z * Z -> Prop :=
| Shows_rgb w h f r g b : eight_bits look img w h -> 0 <= x < w -> 0 <= y < h -> decoding look img f -> entry_is look img (bs "ColorSpace") (OName (bs "DeviceRGB")) ->
    sample 3 w (i_data img) x y 0 = Some r -> sample 3 w (i_data img) x y 1 = Some g -> sample 3 w (i_data img) x y 2 = Some b ->
    shows look img x y (f r, f g, f b)
| Shows_gray w h f g : eight_bits look img w h -> 0 <= x < w -> 0 <= y < h -> decoding look img f -> entry_is look img (bs "ColorSpace") (OName (bs "DeviceGray")) ->
    sample 1 w (i_data img) x y 0 = Some g -> shows look img x y (f g, f g, f g).

(** ** Conditions *)
(** The formats in which images can be set *)
Definition settable (f : pixfmt) : Prop := f = FGray \/ f = FRgb \/ f = FBgr.
(** No size overflows, and the rows of the buffer hold the pixels. *)
Definition sound_row (f : pixfmt) (w row : Z) : Prop := 0 < w /\ bytes_of f * w + 3 < 2 ^ 31 /\ 3 * w < 2 ^ 32 /\ (row < 0 \/ aligned (bytes_of f * w) <= row).
(** The soft mask has a byte for each pixel, where it is asked for. *)
Definition covered (f : pixfmt) (mask : list Z) (w h : Z) : Prop := mask = [] \/ f = FRgb \/ f = FBgr \/ f = FGray \/ w * h <= Z.of_nat (length mask).
(** What a soft mask of the size of the image says about a pixel *)
Definition veil (f : pixfmt) (mask : list Z) (w y x : Z) : option Z :=
  match f, mask with FRgba, _ :: _ | FBgra, _ :: _ => byte_at mask (w * y + x) | _, _ => Some 255 end.
(** A colour space with a table of colours, ISO 32000 8.6.6.3 *)
Definition indexed (base : obj) (high : Z) (table v : obj) : Prop := v = OArr [OName (bs "Indexed"); base; ONum high; table].
