(** The boxes, the rotation and the size of pages: src/pdfmm/base/PdfPage.cpp; forms made of pages: src/pdfmm/base/PdfDocument.cpp,
    PdfXObjectForm.cpp. Doubles are rational numbers, or decimal fractions where they are written. A lookup in the parents and the search for a stream
    have no limit: Fuel means that they are still running. *)
From Coq Require Import String QArith.
From Verif Require Import Base TokModel OwnModel ListModel PageModel RectModel LinkModel AnnotModel.
Local Open Scope Z_scope.

(** ** PdfPage.cpp: boxes *)

(** 173-174; PdfRect.cpp 73-88 FromArray *)
Definition box_array (l : list obj) : res rect := if Nat.eqb (length l) 4 then do q <- reals l; from_array q else Err EValueOutOfRange.
(** 164-192 getPageBox, of the page with the entries [d]; the boxes with a default in turn *)
Definition media_box (fuel : nat) (h : heap) (d : list (list Z * obj)) : res rect :=
  do o <- find_key_parent fuel h (bs "MediaBox") d;
  match o with Some (OArr l) => box_array l | _ => Ok (mk_rect 0 0 0 0) end.
Definition crop_box (fuel : nat) (h : heap) (d : list (list Z * obj)) : res rect :=
  do o <- find_key_parent fuel h (bs "CropBox") d;
  match o with Some (OArr l) => box_array l | _ => media_box fuel h d end.
(** [k]: ArtBox, BleedBox or TrimBox *)
Definition other_box (fuel : nat) (h : heap) (k : list Z) (d : list (list Z * obj)) : res rect :=
  do o <- find_key_parent fuel h k d;
  match o with Some (OArr l) => box_array l | _ => crop_box fuel h d end.
(** 314-326 SetMediaBox, SetTrimBox: [k] is the key *)
Definition set_box (h : heap) (r : ref) (k : list Z) (q : drect) : res heap := set_key h r k (OArr (rect_array q)).

(** ** PdfPage.cpp: rotation *)

(** static_cast<int> of a number of 64 bits *)
Definition int_of (z : Z) : Z := to_int (u32 z).
(** 194-203 GetRotationRaw; a real that is not zero is asked for its number *)
Definition get_rotation (fuel : nat) (h : heap) (d : list (list Z * obj)) : res Z :=
  do o <- find_key_parent fuel h (bs "Rotate") d;
  match o with
  | None => Ok 0
  | Some (ONum z) => Ok (int_of z)
  | Some (OReal m _) => if m =? 0 then Ok 0 else Err EInvalidDataType
  | Some _ => Err EInvalidDataType
  end.
(** 205-211 SetRotationRaw *)
Definition set_rotation (h : heap) (r : ref) (z : Z) : res heap :=
  if negb (z =? 0) && negb (z =? 90) && negb (z =? 180) && negb (z =? 270) then Err EValueOutOfRange else set_key h r (bs "Rotate") (ONum z).
(** 50-63 HasRotation with 504-511 normalize: the angle in degrees, counterclockwise; the divisions of int round towards zero *)
Definition has_rotation (fuel : nat) (h : heap) (d : list (list Z * obj)) : res (option Z) :=
  do r <- get_rotation fuel h d;
  let n := r - Z.quot r 360 * 360 in
  Ok (if n =? 0 then None else Some (- n)).

(** ** PdfPage.cpp: size *)

(** PdfDictionary.cpp 148-170 findKeyParent, as a pointer *)
Fixpoint find_parent_loc (fuel : nat) (h : heap) (l : loc) (k : list Z) : res (option loc) :=
  match fuel with
  | O => Fuel
  | S f =>
    match find_loc h l k with
    | Some x => Ok (Some x)
    | None =>
      match find_loc h l (bs "Parent") with
      | Some p => match read h p with Some (ODict _) => find_parent_loc f h p k | _ => Ok None end
      | None => Ok None
      end
    end
  end.
(** 251-255, 287-290: the end of the array at [x] in the direction [i] is set so that the size is [n] *)
Definition set_end (h : heap) (x : loc) (a : list obj) (i : nat) (n : Z) : res heap :=
  do s <- real_at a i;
  do _ <- at_ a (i + 2);
  Ok (write h x (OArr (firstn (i + 2) a ++ real (dadd (n, 0%nat) s) :: skipn (i + 3) a))).
(** 243-277 SetPageWidth ([i] is 0), 279-312 SetPageHeight ([i] is 1) *)
Definition set_size (fuel : nat) (h : heap) (r : ref) (i : nat) (n : Z) : res (heap * bool) :=
  do m <- find_parent_loc fuel h (At r) (bs "MediaBox");
  match m with
  | Some x =>
    match read h x with
    | Some (OArr a) =>
      do h <- set_end h x a i n;
      do c <- find_parent_loc fuel h (At r) (bs "CropBox");
      match c with
      | Some y => match read h y with Some (OArr b) => do h <- set_end h y b i n; Ok (h, true) | _ => Ok (h, false) end
      | None => Ok (h, false)
      end
    | _ => Ok (h, false)
    end
  | None => Ok (h, false)
  end.

(** ** PdfDocument.cpp: the contents of a form *)

(** 386-408: the stream that the reference leads to; [st] are the streams, decoded *)
Fixpoint stream_of (fuel : nat) (h : heap) (st : ref -> option (list Z)) (r : ref) : res (list Z) :=
  match fuel with
  | O => Fuel
  | S f =>
    match h r with
    | None => Ok []
    | Some (ORef n g) => stream_of f h st (n, g)
    | Some _ => match st r with Some b => Ok b | None => Err EInvalidStream end
    end
  end.
(** 379-417; [text] is ToString of an object *)
Fixpoint joined_streams (fuel : nat) (h : heap) (st : ref -> option (list Z)) (text : obj -> list Z) (l : list obj) : res (list Z) :=
  match l with
  | [] => Ok []
  | o :: t =>
    do b <- match o with ORef n g => stream_of fuel h st (n, g) | _ => Ok (text o ++ [32]) end;
    do bs <- joined_streams fuel h st text t;
    Ok (b ++ bs)
  end.
(** 367-433: the new stream of the form; None: it stays as it was *)
Definition form_stream (fuel : nat) (h : heap) (st : ref -> option (list Z)) (text : obj -> list Z) (d : list (list Z * obj)) : res (option (list Z)) :=
  if has_key (bs "Contents") d then
    match dict_find h (bs "Contents") d with
    | None => Err ENoObject
    | Some (OArr l) => do b <- joined_streams fuel h st text l; Ok (Some b)
    | Some _ =>
      match get_key (bs "Contents") d with
      | Some (ORef n g) => match st (n, g) with Some b => Ok (Some b) | None => Err EInternalLogic end
      | _ => Err EInternalLogic
      end
    end
  else Ok None.

(** ** PdfXObjectForm.cpp: the place of a form *)

(** 99-118: the rotation, and m_Rect with the sides swapped *)
Definition turned_rect (rot : Z) (q : rect) : rect := if (rot =? 90) || (rot =? 270) then mk_rect (rb q) (rl q) (rh q) (rw q) else q.
(** 96-160: the matrix; [turn] gives the cosine and the sine of an angle in degrees *)
Definition form_matrix (turn : Z -> Q * Q) (rot : Z) (q : rect) : matrix :=
  let '(c, s) := turn (- rot) in
  let '(e, f) :=
    (if rot =? 90 then (- rl q, rb q + rh q)
     else if rot =? 180 then (rl q + rw q, rb q + rh q)
     else if rot =? 270 then (rl q + rw q, - rb q)
     else (- rl q, - rb q))%Q in
  mk_matrix c s (- s) c e f.
(** A form: m_Rect, the entries /BBox, /Matrix and /Resources, and the stream *)
Record form := mk_form { f_rect : rect; f_bbox : list Q; f_matrix : matrix; f_res : option obj; f_stream : option (list Z) }.
(** PdfXObjectForm.cpp 34-39 FillFromPage, PdfDocument.cpp 347-440 FillXObjectFromPage: the page has the entries [sd] in its document [look], and its
    copy [d] in the document [h] of the form *)
Definition fill (fuel : nat) (turn : Z -> Q * Q) (text : obj -> list Z) (look : heap) (sd : list (list Z * obj)) (h : heap) (st : ref -> option (list Z))
    (d : list (list Z * obj)) (trim : bool) (f : form) : res form :=
  do m <- media_box fuel look sd;
  do c <- crop_box fuel look sd;
  let box := intersect m c in
  do box <- if trim then (do t <- other_box fuel look (bs "TrimBox") sd; Ok (intersect box t)) else Ok box;
  let rs := match get_key (bs "Resources") d with Some o => Some o | None => f_res f end in
  do b <- form_stream fuel h st text d;
  let b := match b with Some b => Some b | None => f_stream f end in
  do rot <- get_rotation fuel look sd;
  let rot := if rot <? 0 then 360 + rot else rot in
  let q := turned_rect rot box in
  Ok (mk_form q (to_array box) (form_matrix turn rot q) rs b).
(** 23-32: GetRect of the form when it is opened again *)
Definition reopened_rect (f : form) : res rect := from_array (f_bbox f).
