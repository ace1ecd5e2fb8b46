(** Rectangles and matrices: src/pdfmm/base/PdfRect.cpp, PdfMath.cpp. Doubles are rational numbers: rounding, infinities and NaN are left
    out. *)
From Coq Require Import QArith.
From Verif Require Import Base.
Local Open Scope Q_scope.

Definition ltb (a b : Q) : bool := negb (Qle_bool b a).
Definition nonzero (a : Q) : bool := negb (Qeq_bool a 0).
(** m_Left, m_Bottom, m_Width, m_Height *)
Record rect := mk_rect { rl : Q; rb : Q; rw : Q; rh : Q }.
(** 155-163 NormalizeCoordinates *)
Definition normalize (a b : Q) : Q * Q := if ltb b a then (b, a) else (a, b).
(** 143-153 CreateRect, 36-41 FromCorners *)
Definition from_corners (x1 y1 x2 y2 : Q) : rect :=
  let (x1, x2) := normalize x1 x2 in let (y1, y2) := normalize y1 y2 in mk_rect x1 y1 (x2 - x1) (y2 - y1).
(** 73-88 FromArray, of numbers *)
Definition from_array (arr : list Q) : res rect :=
  match arr with [x1; y1; x2; y2] => Ok (from_corners x1 y1 x2 y2) | _ => Err EValueOutOfRange end.
(** 49-56 ToArray, 90-98 GetRight and GetTop *)
Definition right (r : rect) : Q := rl r + rw r.
Definition top (r : rect) : Q := rb r + rh r.
Definition to_array (r : rect) : list Q := [rl r; rb r; rw r + rl r; rh r + rb r].
(** 67-71 Contains *)
Definition contains (r : rect) (x y : Q) : bool := Qle_bool (rl r) x && Qle_bool x (rl r + rw r) && Qle_bool (rb r) y && Qle_bool y (rb r + rh r).
(** 100-132 Intersect *)
Definition intersect (a b : rect) : rect :=
  if nonzero (rb b) || nonzero (rh b) || nonzero (rl b) || nonzero (rw b) then
    let d := rl b - rl a in
    let a := if ltb 0 d then mk_rect (rl a + d) (rb a) (rw a - d) (rh a) else a in
    let d := (rl a + rw a) - (rl b + rw b) in
    let a := if ltb 0 d then mk_rect (rl a) (rb a) (rw a - d) (rh a) else a in
    let d := rb b - rb a in
    let a := if ltb 0 d then mk_rect (rl a) (rb a + d) (rw a) (rh a - d) else a in
    let d := (rb a + rh a) - (rb b + rh b) in
    if ltb 0 d then mk_rect (rl a) (rb a) (rw a) (rh a - d) else a
  else a.

(** ** PdfMath.cpp *)
(** The entries of m_mat; 36-39 FromCoefficients *)
Record matrix := mk_matrix { ma : Q; mb : Q; mc : Q; md : Q; me : Q; mf : Q }.
(** 23-24 *)
Definition identity : matrix := mk_matrix 1 0 0 1 0 0.
(** 211-217 Vector2::operator* *)
Definition image (m : matrix) (v : Q * Q) : Q * Q := (ma m * fst v + mc m * snd v + me m, mb m * fst v + md m * snd v + mf m).
(** 87-97 operator* *)
Definition mult (m1 m2 : matrix) : matrix :=
  mk_matrix (ma m1 * ma m2 + mb m1 * mc m2) (ma m1 * mb m2 + mb m1 * md m2)
            (mc m1 * ma m2 + md m1 * mc m2) (mc m1 * mb m2 + md m1 * md m2)
            (me m1 * ma m2 + mf m1 * mc m2 + me m2) (me m1 * mb m2 + mf m1 * md m2 + mf m2).
(** 41-50 CreateTranslation and CreateScale *)
Definition translation (t : Q * Q) : matrix := mk_matrix 1 0 0 1 (fst t) (snd t).
Definition scale (s : Q * Q) : matrix := mk_matrix (fst s) 0 0 (snd s) 0 0.
(** 65-71 CreateRotation around [c]; [al] and [be] are the cosine and sine *)
Definition rotation (c : Q * Q) (al be : Q) : matrix :=
  mk_matrix al be (- be) al (- fst c * al + snd c * be + fst c) (- fst c * be - snd c * al + snd c).
(** 73-78 Translate *)
Definition translate (m : matrix) (t : Q * Q) : matrix :=
  mk_matrix (ma m) (mb m) (mc m) (md m) (fst t * ma m + snd t * mc m + me m) (fst t * mb m + snd t * md m + mf m).
(** PdfRect.cpp:134-141 operator* *)
Definition times (r : rect) (m : matrix) : rect :=
  let c1 := image m (rl r, rb r) in let c2 := image m (right r, top r) in from_corners (fst c1) (snd c1) (fst c2) (snd c2).
