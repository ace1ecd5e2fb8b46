(** Images: base/PdfImage.cpp:51-88, 179-241, 277-388 and 1332-1367, private/ImageUtils.cpp:35-83 and 174-362. *)
From Coq Require Import String.
From Verif Require Import Base TokModel FilterModel OwnModel EncryptModel StreamModel.
Local Open Scope Z_scope.
Local Notation dict := (list (list Z * obj)) (only parsing).

(** PdfDeclarations.h:328-336 *)
Inductive pixfmt := FUnknown | FGray | FRgb | FBgr | FRgba | FBgra.
(** m_Width and m_Height, the dictionary, and the bytes which reading the stream gives; no media filter is left over. *)
Record image := mk_image { i_w : Z; i_h : Z; i_dict : dict; i_data : list Z }.

(** 285-308 and 181-211: the size of a row where none is given. The arithmetic is that of unsigned. *)
Definition default_row (f : pixfmt) (w : Z) : res Z :=
  match f with
  | FRgba | FBgra => Ok (u32 (4 * w))
  | FRgb | FBgr => Ok (4 * (u32 (3 * w + 3) / 4))
  | FGray => Ok (4 * (u32 (w + 3) / 4))
  | FUnknown => Err EInvalidEnumValue
  end.
(** Three bytes and one byte of a row at a time. Where a line would be left unfinished the callers have found the bytes
    missing before. *)
Fixpoint conv3 (f : Z -> Z -> Z -> Z -> list Z) (src alpha : list Z) : list Z :=
  match src, alpha with
  | r :: g :: b :: t, a :: u => f r g b a ++ conv3 f t u
  | _, _ => []
  end.
Fixpoint conv1 (f : Z -> Z -> list Z) (src alpha : list Z) : list Z :=
  match src, alpha with
  | g :: t, a :: u => f g a ++ conv1 f t u
  | _, _ => []
  end.
(** [n] bytes from a place of a buffer: undefined beyond it. Pointers that are not followed are left out. *)
Definition span_at (data : list Z) (base n : Z) : res (list Z) :=
  if n =? 0 then Ok [] else if Z.of_nat (length data) <? base + n then UB else Ok (firstn (Z.to_nat n) (skipn (Z.to_nat base) data)).

(** ** SetData *)
(** 313-320 with 1349-1367 for BGR24, and 324-328: a row of the file from a row of the buffer *)
Definition pdf_line (f : pixfmt) (w : Z) (line : list Z) : res (list Z) :=
  match f with
  | FBgr => if u32 (3 * w) <? 3 * w then UB else do s <- span_at line 0 (3 * w); Ok (conv3 (fun b g r _ => [r; g; b]) s (repeat 255 (Z.to_nat w)))
  | FRgb => span_at line 0 (u32 (3 * w))
  | _ => span_at line 0 w
  end.
(** 311-329: the rows one after the other. The input is a buffer or a stream that ends after these bytes
    (PdfInputStream.cpp:21-38). *)
Fixpoint set_rows (n : nat) (f : pixfmt) (w size : Z) (src : list Z) : res (list Z) :=
  match n with
  | O => Ok []
  | S n' =>
    if Z.of_nat (length src) <? size then Err EUnexpectedEOF
    else
      do l <- pdf_line f w (firstn (Z.to_nat size) src);
      do r <- set_rows n' f w size (skipn (Z.to_nat size) src);
      Ok (l ++ r)
  end.
(** 277-338. The image after an exception is left out. *)
Definition set_pixels (img : image) (src : list Z) (w h : Z) (f : pixfmt) (row : Z) : res image :=
  match f with
  | FRgba | FBgra => Err ENotImplemented
  | FUnknown => Err EInvalidEnumValue
  | _ =>
    do def <- default_row f w;
    do b <- set_rows (Z.to_nat h) f w (if row <? 0 then def else row) src;
    let space := match f with FGray => bs "DeviceGray" | _ => bs "DeviceRGB" end in
    Ok (mk_image w h
      (erase_key (bs "Decode") (dict_add (bs "ColorSpace") (OName space) (dict_add (bs "BitsPerComponent") (ONum 8)
        (dict_add (bs "Height") (ONum h) (dict_add (bs "Width") (ONum w) (i_dict img)))))) b)
  end.

(** ** DecodeTo *)
(** 179-224 initScanLine: the length of the row. The error is UnsupportedImageFormat, which is given as EUnsupportedFilter
    here and below. *)
Definition row_size (f : pixfmt) (w row : Z) : res Z :=
  do def <- default_row f w;
  if row <? 0 then Ok def else if row <? s32 def then Err EUnsupportedFilter else Ok row.
(** ImageUtils.cpp:174-278 *)
Definition rgb_line (f : pixfmt) : res (Z -> Z -> Z -> Z -> list Z) :=
  match f with
  | FRgba => Ok (fun r g b a => [r; g; b; a])
  | FBgra => Ok (fun r g b a => [b; g; r; a])
  | FRgb => Ok (fun r g b _ => [r; g; b])
  | FBgr => Ok (fun r g b _ => [b; g; r])
  | _ => Err EUnsupportedFilter
  end.
(** 280-362 *)
Definition gray_line (f : pixfmt) : res (Z -> Z -> list Z) :=
  match f with
  | FRgba | FBgra => Ok (fun g a => [g; g; g; a])
  | FRgb | FBgr => Ok (fun g _ => [g; g; g])
  | FGray => Ok (fun g _ => [g])
  | FUnknown => Err EUnsupportedFilter
  end.
(** 35-83: row [i] put into the scan line. The rows of both kinds of images are taken to have three bytes for each
    pixel (38, 63). *)
Definition fetch_row (gray : bool) (f : pixfmt) (w : Z) (data mask : list Z) (i : Z) (scan : list Z) : res (list Z) :=
  let base := u32 (i * u32 (3 * w)) in
  let alpha := match mask with [] => Ok (repeat 255 (Z.to_nat w)) | _ => span_at mask (u32 (i * w)) w end in
  do out <-
    (if gray then do c <- gray_line f; do s <- span_at data base w; do a <- alpha; Ok (conv1 c s a)
     else do c <- rgb_line f; do s <- span_at data base (3 * w); do a <- alpha; Ok (conv3 c s a));
  if (length scan <? length out)%nat then UB else Ok (out ++ skipn (length out) scan).
(** The rows from [i] on; [room] is what is left in the buffer to which they go, if there is a limit
    (PdfStreamDevice.cpp:571-578). *)
Fixpoint fetch_rows (n : nat) (gray : bool) (f : pixfmt) (w : Z) (data mask : list Z) (i : Z) (room : option Z) (scan : list Z) : res (list Z) :=
  match n with
  | O => Ok []
  | S n' =>
    do s <- fetch_row gray f w data mask i scan;
    let k := Z.of_nat (length s) in
    if match room with Some r => r <? k | None => false end then Err EValueOutOfRange
    else do t <- fetch_rows n' gray f w data mask (i + 1) (option_map (fun r => r - k) room) s; Ok (s ++ t)
  end.
(** 226-241 GetColorSpace, as far as it is asked for *)
Inductive cspace := CRgb | CGray | COther.
Definition color_space (look : Z * Z -> option obj) (d : dict) : cspace :=
  match dict_find look (bs "ColorSpace") d with
  | Some (OName n) => if beq n (bs "DeviceRGB") then CRgb else if beq n (bs "DeviceGray") then CGray else COther
  | _ => COther
  end.
(** 65-88 DecodeTo without media filters. [mask] is what the stream of /SMask gives, empty where there is none; it is
    looked at for two formats only (184-196). *)
Definition decode_image (look : Z * Z -> option obj) (img : image) (mask : list Z) (f : pixfmt) (row : Z) (room : option Z) : res (list Z) :=
  do size <- row_size f (i_w img) row;
  let m := match f with FRgba | FBgra => mask | _ => [] end in
  let scan := repeat 0 (Z.to_nat size) in
  match color_space look (i_dict img) with
  | CRgb => fetch_rows (Z.to_nat (i_h img)) false f (i_w img) (i_data img) m 0 room scan
  | CGray => fetch_rows (Z.to_nat (i_h img)) true f (i_w img) (i_data img) m 0 room scan
  | COther => Err EUnsupportedFilter
  end.
(** 1332-1347 *)
Definition buffer_size (f : pixfmt) (w h : Z) : res Z := do def <- default_row f w; Ok (u32 (def * h)).
(** 51-56: DecodeTo of a buffer, which is given the size that the format asks for; what it had before stays behind the rows *)
Definition decode_buffer (look : Z * Z -> option obj) (img : image) (mask : list Z) (f : pixfmt) (row : Z) (old : list Z) : res (list Z) :=
  do n <- buffer_size f (i_w img) (i_h img);
  do out <- decode_image look img mask f row (Some n);
  Ok (out ++ skipn (length out) (firstn (Z.to_nat n) (old ++ repeat 0 (Z.to_nat n)))).

(** ** SetDataRaw *)
(** PdfImage.h:22-31. The colour space is given by its name and the array. *)
Record info := mk_info { n_w : Z; n_h : Z; n_filters : list ftype; n_space : list Z; n_array : list obj; n_bits : Z; n_decode : list obj }.
(** 346-388. The stream gets the data as it is (StreamModel's [set_data] without filters), and the entry for the filters is
    set afterwards. The name of the colour space is put to an array that is not used (366-368). *)
Definition set_raw (z : zlib) (blocks : list (list Z)) (i : info) (s : sobj) : res unit * sobj :=
  let d := dict_add (bs "BitsPerComponent") (ONum (n_bits i)) (dict_add (bs "Height") (ONum (n_h i)) (dict_add (bs "Width") (ONum (n_w i)) (sdict s))) in
  let d := match n_decode i with [] => erase_key (bs "Decode") d | l => dict_add (bs "Decode") (OArr l) d end in
  let d := match n_array i with [] => dict_add (bs "ColorSpace") (OName (n_space i)) d | l => dict_add (bs "ColorSpace") (OArr l) d end in
  let '(r, t) := set_data z [] blocks (mk_sobj d (sdata s) (sfilters s)) in
  match r with
  | Ok _ => (Ok tt, mk_sobj (match n_filters i with [] => sdict t | fs => set_filter fs (sdict t) end) (sdata t) (sfilters t))
  | _ => (r, t)
  end.
