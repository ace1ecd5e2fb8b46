(** Devices in memory: src/pdfmm/base/PdfStreamDevice.h and .cpp (ContainerStreamDevice, SpanStreamDevice, NullStreamDevice) with the public
    functions of StreamDeviceBase, InputStreamDevice, InputStream and OutputStream, and the file identifier of PdfWriter.cpp. An exception
    leaves the device as it is at that moment: every operation gives the device and a result. Running out of memory is left out. *)
From Verif Require Import Base Md5.
Local Open Scope Z_scope.

Definition size_max : Z := 18446744073709551616.
Definition wrap (z : Z) : Z := z mod size_max.
Definition ssize_min : Z := -9223372036854775808.
Inductive dir := Begin | Current | End_.
(** PdfStreamDevice.cpp:92-139 SeekPosition; negating the least ssize_t is undefined *)
Definition neg (off : Z) : res Z := if off =? ssize_min then UB else Ok (- off).
Definition seek_position (cur len off : Z) (d : dir) : res Z :=
  match d with
  | Begin => if off <? 0 then Err EInvalidDeviceOperation else if len <? off then Err EValueOutOfRange else Ok off
  | Current =>
    if off =? 0 then Ok cur
    else if 0 <? off then (if wrap (len - cur) <? off then Err EValueOutOfRange else Ok (wrap (cur + off)))
    else do n <- neg off; if cur <? n then Err EValueOutOfRange else Ok (wrap (cur + off))
  | End_ => if 0 <? off then Err EInvalidDeviceOperation else do n <- neg off; if len <? n then Err EValueOutOfRange else Ok (wrap (len + off))
  end.

(** Span: PdfStreamDevice.cpp:511-617; container: PdfStreamDevice.h:124-201. [d_grows] tells which, [d_read] and [d_write] are the access
    (PdfStreamDeviceBase.cpp:46-50) *)
Record dev := mk_dev { d_grows : bool; d_read : bool; d_write : bool; d_buf : list Z; d_pos : Z }.
Definition d_len (d : dev) : Z := Z.of_nat (length (d_buf d)).
Definition set_pos (d : dev) (p : Z) : dev := mk_dev (d_grows d) (d_read d) (d_write d) (d_buf d) p.
(** .h:128-138 the constructors of a container device, .cpp:511-549 of a span device *)
Definition container_dev (buf : list Z) : dev := mk_dev true true true buf (Z.of_nat (length buf)).
Definition container_read_dev (buf : list Z) : dev := mk_dev true true false buf 0.
Definition container_dev_of (buf : list Z) (r w ate : bool) : dev := mk_dev true r w buf (if ate then Z.of_nat (length buf) else 0).
Definition span_dev (buf : list Z) : dev := mk_dev false true false buf 0.
Definition span_dev_of (buf : list Z) (r w : bool) : dev := mk_dev false r w buf 0.

(** memcpy to and from the memory of the device: undefined outside of it *)
Definition put (buf : list Z) (p : Z) (data : list Z) : res (list Z) :=
  let n := Z.of_nat (length data) in
  if (p <? 0) || (Z.of_nat (length buf) <? p + n) then UB
  else Ok (firstn (Z.to_nat p) buf ++ data ++ skipn (Z.to_nat (p + n)) buf).
Definition get (buf : list Z) (p n : Z) : res (list Z) :=
  if (p <? 0) || (Z.of_nat (length buf) <? p + n) then UB else Ok (firstn (Z.to_nat n) (skipn (Z.to_nat p) buf)).

Inductive op :=
| Write (data : list Z)
| Read (n : Z)            (* Read(buffer, size, eof) *)
| ReadAll (n : Z)         (* Read(buffer, size) *)
| ReadChar
| Peek
| Seek (off : Z) (d : dir).
Inductive out := Done | Bytes (l : list Z) (eof : bool) | Char (c : option Z).

(** .h:150-157, .cpp:571-578 writeBuffer *)
Definition write_buffer (d : dev) (data : list Z) : dev * res out :=
  let n := Z.of_nat (length data) in
  let go d := match put (d_buf d) (d_pos d) data with
    | Ok b => (mk_dev (d_grows d) (d_read d) (d_write d) b (wrap (d_pos d + n)), Ok Done)
    | Err e => (d, Err e) | UB => (d, UB) | Fuel => (d, Fuel) end in
  if d_len d <? wrap (d_pos d + n) then
    if d_grows d then go (mk_dev true (d_read d) (d_write d) (d_buf d ++ repeat 0 (Z.to_nat (wrap (d_pos d + n) - d_len d))) (d_pos d))
    else (d, Err EValueOutOfRange)
  else go d.
(** .h:159-166, .cpp:580-587 readBuffer *)
Definition read_buffer (d : dev) (n : Z) : dev * res (list Z * bool) :=
  let count := Z.min n (wrap (d_len d - d_pos d)) in
  match get (d_buf d) (d_pos d) count with
  | Ok l => let p := wrap (d_pos d + count) in (set_pos d p, Ok (l, p =? d_len d))
  | Err e => (d, Err e) | UB => (d, UB) | Fuel => (d, Fuel)
  end.
(** PdfInputStream.cpp:21-38 *)
Fixpoint read_all (fuel : nat) (d : dev) (n : Z) (acc : list Z) : dev * res (list Z) :=
  match fuel with
  | O => (d, Fuel)
  | S f => match read_buffer d (n - Z.of_nat (length acc)) with
           | (d, Ok (l, eof)) =>
             if Z.of_nat (length (acc ++ l)) =? n then (d, Ok (acc ++ l)) else if eof then (d, Err EUnexpectedEOF) else read_all f d n (acc ++ l)
           | (d, Err e) => (d, Err e) | (d, UB) => (d, UB) | (d, Fuel) => (d, Fuel)
           end
  end.
(** .h:168-191, .cpp:589-612 readChar and peek *)
Definition char_at (d : dev) : res (option Z) := if d_pos d =? d_len d then Ok None else do l <- get (d_buf d) (d_pos d) 1; Ok (Some (nth 0 l 0)).
(** The public functions: PdfOutputStream.cpp:17-39, PdfInputStream.cpp:21-66, PdfInputDevice.cpp:22-31, PdfStreamDeviceBase.cpp:20-34 *)
Definition step (d : dev) (o : op) : dev * res out :=
  match o with
  | Write [] => (d, Ok Done)
  | Write data => if d_write d then write_buffer d data else (d, Err EInternalLogic)
  | Read n => if d_read d then (let (d, r) := read_buffer d n in (d, do x <- r; Ok (Bytes (fst x) (snd x)))) else (d, Err EInternalLogic)
  | ReadAll n => if d_read d then (let (d, r) := read_all 3 d n [] in (d, do x <- r; Ok (Bytes x (d_pos d =? d_len d)))) else (d, Err EInternalLogic)
  | ReadChar => if d_read d then (match char_at d with
                                  | Ok (Some c) => (set_pos d (wrap (d_pos d + 1)), Ok (Char (Some c)))
                                  | Ok None => (d, Ok (Char None)) | Err e => (d, Err e) | UB => (d, UB) | Fuel => (d, Fuel) end)
                else (d, Err EInternalLogic)
  | Peek => if d_read d then (d, do c <- char_at d; Ok (Char c)) else (d, Err EInternalLogic)
  | Seek off dr => match seek_position (d_pos d) (d_len d) off dr with
                   | Ok p => (set_pos d p, Ok Done) | Err e => (d, Err e) | UB => (d, UB) | Fuel => (d, Fuel) end
  end.
Fixpoint run (d : dev) (ops : list op) : dev * list (res out) :=
  match ops with [] => (d, []) | o :: r => let (d, x) := step d o in let (d, xs) := run d r in (d, x :: xs) end.

(** ** NullStreamDevice: PdfStreamDevice.cpp:453-509. There are no bytes; what readBuffer gives is only a count *)
Record null_dev := mk_null { n_len : Z; n_pos : Z }.
Definition null_new : null_dev := mk_null 0 0.
Definition null_write (d : null_dev) (data : list Z) : null_dev :=
  let p := wrap (n_pos d + Z.of_nat (length data)) in mk_null (if n_len d <? p then p else n_len d) p.
Definition null_read (d : null_dev) (n : Z) : null_dev * (Z * bool) :=
  let p := Z.min (n_len d) (wrap (n_pos d + n)) in (mk_null (n_len d) p, (wrap (p - n_pos d), p =? n_len d)).
(** 496-504 readChar *)
Definition null_read_char (d : null_dev) : null_dev * option Z :=
  if n_pos d =? n_len d then (d, None) else (mk_null (n_len d) (n_pos d + 1), None).
(** 458-462 peek *)
Definition null_peek (d : null_dev) : option Z := if n_len d =? n_pos d then None else Some 0.
(** 506-509; CanSeek is not redefined (PdfStreamDeviceBase.cpp:41-44), so Seek raises (28-34) *)
Definition null_seek (d : null_dev) (off : Z) (dr : dir) : res null_dev := Err EInvalidDeviceOperation.

(** ** PdfWriter.cpp:289-298: the identifier. Writing the dictionary is a sequence of writes to the device, the same for both devices *)
Definition write_all (d : dev) (chunks : list (list Z)) : dev := fst (run d (map Write chunks)).
Definition identifier (chunks : list (list Z)) : list Z :=
  let n := n_len (fold_left null_write chunks null_new) in
  let d := write_all (container_dev (repeat 0 (Z.to_nat n))) chunks in
  md5 (firstn (Z.to_nat n) (d_buf d)).
