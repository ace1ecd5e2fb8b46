(** What painting should show. A machine for content streams (ISO 32000-1, 8.2 with figure 9, 8.4 to 8.6, 9.3 and 9.4) and what the calls of the
    painter are meant to do, told without instructions. Numbers are in millionths. *)
From Coq Require Import String QArith.
From Verif Require Import Base TokModel ContentsSpec PainterModel.
Local Open Scope Z_scope.

(** ** Numbers *)
(** the nearest number of millionths, the even one of two *)
Definition millionths (q : Q) : Z :=
  let n := Qnum q * 10 ^ 6 in
  let d := Zpos (Qden q) in
  let z := (2 * n + d) / (2 * d) in
  if (2 * z * d =? 2 * n + d) && Z.odd z then z - 1 else z.
(** what a value in a content stream says, if it is a number of millionths *)
Definition number (o : obj) : option Z :=
  match o with
  | ONum n => Some (n * 10 ^ 6)
  | OReal m k => if (k <=? 6)%nat then Some (m * 10 ^ Z.of_nat (6 - k)) else None
  | _ => None
  end.
Fixpoint numbers (l : list obj) : option (list Z) :=
  match l with
  | [] => Some []
  | o :: r => match number o, numbers r with Some z, Some s => Some (z :: s) | _, _ => None end
  end.

(** ** States *)
Inductive seg (A : Type) := SMove (x y : A) | SLine (x y : A) | SCurve (a b c d e f : A) | SRect (x y w h : A) | SClose.
Arguments SMove {A}. Arguments SLine {A}. Arguments SCurve {A}. Arguments SRect {A}. Arguments SClose {A}.
(** a colour: the name of its space and its components *)
Definition paint : Type := (list Z * list Z)%type.
(** the matrices which were concatenated, the last one first; the clipping paths with the rule of each *)
Record gstate := mk_g
  { g_ctm : list (list Z); g_width : Z; g_miter : Z; g_cap : Z; g_join : Z; g_intent : list Z; g_fill : paint; g_stroke : paint;
    g_dash : list Z * Z; g_ext : list (list Z); g_clip : list (list (seg Z) * bool) }.
Record tstate := mk_t { t_font : option (list Z * Z); t_scale : Z; t_char : Z; t_word : Z; t_mode : Z }.
(** tables 52 and 104 *)
Definition iso_g : gstate :=
  mk_g [] (10 ^ 6) (10 * 10 ^ 6) 0 0 (bs "RelativeColorimetric") (bs "DeviceGray", [0]) (bs "DeviceGray", [0]) ([], 0) [] [].
Definition iso_t : tstate := mk_t None (100 * 10 ^ 6) 0 0 0.
Inductive how := Stroked | Filled (eo : bool) | Both (eo : bool).
(** what is seen: a path, a string after the moves since the beginning of its text, an object *)
Inductive event :=
| EPath (h : how) (path : list (seg Z)) (g : gstate)
| EText (moves : list (Z * Z)) (s : list Z) (g : gstate) (t : tstate)
| EObject (n : list Z) (g : gstate).
Record mstate := mk_m
  { m_g : gstate; m_t : tstate; m_stack : list (gstate * tstate); m_path : list (seg Z); m_clip : option bool; m_text : option (list (Z * Z));
    m_marks : list (list Z); m_events : list event }.
Definition begin_m : mstate := mk_m iso_g iso_t [] [] None None [] [].

(** ** The machine *)
Definition set_g (g : gstate) (m : mstate) : mstate := mk_m g (m_t m) (m_stack m) (m_path m) (m_clip m) (m_text m) (m_marks m) (m_events m).
Definition set_t (t : tstate) (m : mstate) : mstate := mk_m (m_g m) t (m_stack m) (m_path m) (m_clip m) (m_text m) (m_marks m) (m_events m).
Definition show (e : event) (m : mstate) : mstate :=
  mk_m (m_g m) (m_t m) (m_stack m) (m_path m) (m_clip m) (m_text m) (m_marks m) (m_events m ++ [e]).
Definition set_path (l : list (seg Z)) (m : mstate) : mstate := mk_m (m_g m) (m_t m) (m_stack m) l (m_clip m) (m_text m) (m_marks m) (m_events m).
Definition set_mtext (x : option (list (Z * Z))) (m : mstate) : mstate :=
  mk_m (m_g m) (m_t m) (m_stack m) (m_path m) (m_clip m) x (m_marks m) (m_events m).
Definition set_clip (x : option bool) (m : mstate) : mstate := mk_m (m_g m) (m_t m) (m_stack m) (m_path m) x (m_text m) (m_marks m) (m_events m).
Definition set_marks (l : list (list Z)) (m : mstate) : mstate :=
  mk_m (m_g m) (m_t m) (m_stack m) (m_path m) (m_clip m) (m_text m) l (m_events m).
Definition set_stack (l : list (gstate * tstate)) (m : mstate) : mstate :=
  mk_m (m_g m) (m_t m) l (m_path m) (m_clip m) (m_text m) (m_marks m) (m_events m).
(** Figure 9: outside paths; outside paths and texts; in a path; where a path may begin or go on; in a text *)
Definition no_path (m : mstate) : bool := match m_path m, m_clip m with [], None => true | _, _ => false end.
Definition no_text (m : mstate) : bool := match m_text m with None => true | _ => false end.
Definition page_level (m : mstate) : bool := no_path m && no_text m.
Definition has_path (m : mstate) : bool := match m_path m with [] => false | _ => true end.
Definition open_path (m : mstate) : bool := no_text m && match m_clip m with None => true | _ => false end.
Definition in_path (m : mstate) : bool := open_path m && has_path m.

Definition with_ctm v g := mk_g v (g_width g) (g_miter g) (g_cap g) (g_join g) (g_intent g) (g_fill g) (g_stroke g) (g_dash g) (g_ext g) (g_clip g).
Definition with_width v g := mk_g (g_ctm g) v (g_miter g) (g_cap g) (g_join g) (g_intent g) (g_fill g) (g_stroke g) (g_dash g) (g_ext g) (g_clip g).
Definition with_miter v g := mk_g (g_ctm g) (g_width g) v (g_cap g) (g_join g) (g_intent g) (g_fill g) (g_stroke g) (g_dash g) (g_ext g) (g_clip g).
Definition with_cap v g := mk_g (g_ctm g) (g_width g) (g_miter g) v (g_join g) (g_intent g) (g_fill g) (g_stroke g) (g_dash g) (g_ext g) (g_clip g).
Definition with_join v g := mk_g (g_ctm g) (g_width g) (g_miter g) (g_cap g) v (g_intent g) (g_fill g) (g_stroke g) (g_dash g) (g_ext g) (g_clip g).
Definition with_intent v g := mk_g (g_ctm g) (g_width g) (g_miter g) (g_cap g) (g_join g) v (g_fill g) (g_stroke g) (g_dash g) (g_ext g) (g_clip g).
Definition with_fill v g := mk_g (g_ctm g) (g_width g) (g_miter g) (g_cap g) (g_join g) (g_intent g) v (g_stroke g) (g_dash g) (g_ext g) (g_clip g).
Definition with_stroke v g := mk_g (g_ctm g) (g_width g) (g_miter g) (g_cap g) (g_join g) (g_intent g) (g_fill g) v (g_dash g) (g_ext g) (g_clip g).
Definition with_dash v g := mk_g (g_ctm g) (g_width g) (g_miter g) (g_cap g) (g_join g) (g_intent g) (g_fill g) (g_stroke g) v (g_ext g) (g_clip g).
Definition with_ext v g := mk_g (g_ctm g) (g_width g) (g_miter g) (g_cap g) (g_join g) (g_intent g) (g_fill g) (g_stroke g) (g_dash g) v (g_clip g).
Definition with_clip v g := mk_g (g_ctm g) (g_width g) (g_miter g) (g_cap g) (g_join g) (g_intent g) (g_fill g) (g_stroke g) (g_dash g) (g_ext g) v.
Definition with_font v t := mk_t v (t_scale t) (t_char t) (t_word t) (t_mode t).
Definition with_scale v t := mk_t (t_font t) v (t_char t) (t_word t) (t_mode t).
Definition with_char v t := mk_t (t_font t) (t_scale t) v (t_word t) (t_mode t).
Definition with_word v t := mk_t (t_font t) (t_scale t) (t_char t) v (t_mode t).
Definition with_mode v t := mk_t (t_font t) (t_scale t) (t_char t) (t_word t) v.

Definition when (b : bool) (m : mstate) : option mstate := if b then Some m else None.
(** the end of a path: the clipping path is taken from the path *)
Definition end_path (m : mstate) : mstate :=
  let g := m_g m in
  set_clip None (set_path [] (match m_clip m with None => m | Some eo => set_g (with_clip (g_clip g ++ [(m_path m, eo)]) g) m end)).
Definition painted (h : how) (m : mstate) : option mstate := when (no_text m && has_path m) (end_path (show (EPath h (m_path m) (m_g m)) m)).
Definition add_path (s : seg Z) (m : mstate) : mstate := set_path (m_path m ++ [s]) m.

(** One operator. An operator which is not allowed where it is, or with other operands, has no meaning *)
Definition exec_op (args : list obj) (n : list Z) (m : mstate) : option mstate :=
  let g := m_g m in
  let t := m_t m in
  if beq n (bs "q") then match args with [] => when (page_level m) (set_stack ((g, t) :: m_stack m) m) | _ => None end
  else if beq n (bs "Q") then match args, m_stack m with [], (g0, t0) :: r => when (page_level m) (set_stack r (set_g g0 (set_t t0 m))) | _, _ => None end
  else if beq n (bs "cm") then match numbers args with Some [a; b; c; d; e; f] => when (page_level m) (set_g (with_ctm ([a; b; c; d; e; f] :: g_ctm g) g) m) | _ => None end
  else if beq n (bs "w") then match numbers args with Some [v] => when (no_path m) (set_g (with_width v g) m) | _ => None end
  else if beq n (bs "M") then match numbers args with Some [v] => when (no_path m) (set_g (with_miter v g) m) | _ => None end
  else if beq n (bs "J") then match args with [ONum v] => when (no_path m && (0 <=? v) && (v <=? 2)) (set_g (with_cap v g) m) | _ => None end
  else if beq n (bs "j") then match args with [ONum v] => when (no_path m && (0 <=? v) && (v <=? 2)) (set_g (with_join v g) m) | _ => None end
  else if beq n (bs "ri") then match args with [OName v] => when (no_path m) (set_g (with_intent v g) m) | _ => None end
  else if beq n (bs "gs") then match args with [OName v] => when (no_path m) (set_g (with_ext (g_ext g ++ [v]) g) m) | _ => None end
  else if beq n (bs "d") then
    match args with
    | [OArr l; o] => match numbers l, number o with Some l, Some v => when (no_path m) (set_g (with_dash (l, v) g) m) | _, _ => None end
    | _ => None
    end
  else if beq n (bs "g") then match numbers args with Some [a] => when (no_path m) (set_g (with_fill (bs "DeviceGray", [a]) g) m) | _ => None end
  else if beq n (bs "G") then match numbers args with Some [a] => when (no_path m) (set_g (with_stroke (bs "DeviceGray", [a]) g) m) | _ => None end
  else if beq n (bs "rg") then match numbers args with Some [a; b; c] => when (no_path m) (set_g (with_fill (bs "DeviceRGB", [a; b; c]) g) m) | _ => None end
  else if beq n (bs "RG") then match numbers args with Some [a; b; c] => when (no_path m) (set_g (with_stroke (bs "DeviceRGB", [a; b; c]) g) m) | _ => None end
  else if beq n (bs "k") then match numbers args with Some [a; b; c; d] => when (no_path m) (set_g (with_fill (bs "DeviceCMYK", [a; b; c; d]) g) m) | _ => None end
  else if beq n (bs "K") then match numbers args with Some [a; b; c; d] => when (no_path m) (set_g (with_stroke (bs "DeviceCMYK", [a; b; c; d]) g) m) | _ => None end
  else if beq n (bs "cs") then match args with [OName v] => when (no_path m) (set_g (with_fill (v, []) g) m) | _ => None end
  else if beq n (bs "CS") then match args with [OName v] => when (no_path m) (set_g (with_stroke (v, []) g) m) | _ => None end
  else if beq n (bs "scn") then match numbers args with Some l => when (no_path m) (set_g (with_fill (fst (g_fill g), l) g) m) | _ => None end
  else if beq n (bs "SCN") then match numbers args with Some l => when (no_path m) (set_g (with_stroke (fst (g_stroke g), l) g) m) | _ => None end
  else if beq n (bs "m") then match numbers args with Some [a; b] => when (open_path m) (add_path (SMove a b) m) | _ => None end
  else if beq n (bs "l") then match numbers args with Some [a; b] => when (in_path m) (add_path (SLine a b) m) | _ => None end
  else if beq n (bs "c") then match numbers args with Some [a; b; c; d; e; f] => when (in_path m) (add_path (SCurve a b c d e f) m) | _ => None end
  else if beq n (bs "re") then match numbers args with Some [a; b; c; d] => when (open_path m) (add_path (SRect a b c d) m) | _ => None end
  else if beq n (bs "h") then match args with [] => when (in_path m) (add_path SClose m) | _ => None end
  else if beq n (bs "S") then match args with [] => painted Stroked m | _ => None end
  else if beq n (bs "f") then match args with [] => painted (Filled false) m | _ => None end
  else if beq n (bs "f*") then match args with [] => painted (Filled true) m | _ => None end
  else if beq n (bs "B") then match args with [] => painted (Both false) m | _ => None end
  else if beq n (bs "B*") then match args with [] => painted (Both true) m | _ => None end
  else if beq n (bs "n") then match args with [] => when (no_text m && has_path m) (end_path m) | _ => None end
  else if beq n (bs "W") then match args with [] => when (in_path m) (set_clip (Some false) m) | _ => None end
  else if beq n (bs "W*") then match args with [] => when (in_path m) (set_clip (Some true) m) | _ => None end
  else if beq n (bs "BT") then match args with [] => when (page_level m) (set_mtext (Some []) m) | _ => None end
  else if beq n (bs "ET") then match args with [] => when (negb (no_text m)) (set_mtext None m) | _ => None end
  else if beq n (bs "Td") then match numbers args, m_text m with Some [x; y], Some l => Some (set_mtext (Some (l ++ [(x, y)])) m) | _, _ => None end
  else if beq n (bs "Tj") then
    match args, m_text m, t_font t with [OStr _ s], Some l, Some _ => Some (show (EText l s g t) m) | _, _, _ => None end
  else if beq n (bs "Tf") then
    match args with [OName f; o] => match number o with Some z => when (no_path m) (set_t (with_font (Some (f, z)) t) m) | None => None end | _ => None end
  else if beq n (bs "Tz") then match numbers args with Some [v] => when (no_path m) (set_t (with_scale v t) m) | _ => None end
  else if beq n (bs "Tc") then match numbers args with Some [v] => when (no_path m) (set_t (with_char v t) m) | _ => None end
  else if beq n (bs "Tw") then match numbers args with Some [v] => when (no_path m) (set_t (with_word v t) m) | _ => None end
  else if beq n (bs "Tr") then match args with [ONum v] => when (no_path m && (0 <=? v) && (v <=? 7)) (set_t (with_mode v t) m) | _ => None end
  else if beq n (bs "Do") then match args with [OName v] => when (page_level m) (show (EObject v g) m) | _ => None end
  else if beq n (bs "BMC") then match args with [OName v] => when (no_path m) (set_marks (v :: m_marks m) m) | _ => None end
  else if beq n (bs "EMC") then match args, m_marks m with [], _ :: r => when (no_path m) (set_marks r m) | _, _ => None end
  else None.
Definition exec (i : instr) (m : mstate) : option mstate := match i with IOp args n => exec_op args n m | IImage _ _ => None end.
Fixpoint execs (l : list instr) (m : mstate) : option mstate :=
  match l with [] => Some m | i :: r => match exec i m with Some m => execs r m | None => None end end.

(** ** What the calls mean *)
Definition mpath (l : list (seg Q)) : list (seg Z) :=
  map (fun s => match s with
                | SMove x y => SMove (millionths x) (millionths y)
                | SLine x y => SLine (millionths x) (millionths y)
                | SCurve a b c d e f => SCurve (millionths a) (millionths b) (millionths c) (millionths d) (millionths e) (millionths f)
                | SRect x y w h => SRect (millionths x) (millionths y) (millionths w) (millionths h)
                | SClose => SClose
                end) l.
Definition seg_numbers (s : seg Q) : list Q :=
  match s with SMove x y | SLine x y => [x; y] | SCurve a b c d e f => [a; b; c; d; e; f] | SRect x y w h => [x; y; w; h] | SClose => [] end.
(** a point from a centre: so much to the right and so much upwards *)
Definition from (c : Q * Q) (dx dy : Q) : Q * Q := (fst c + dx, snd c + dy)%Q.
Definition curve (a b c : Q * Q) : seg Q := SCurve (fst a) (snd a) (fst b) (snd b) (fst c) (snd c).
(** an ellipse in four quarters, from the right (or the left) over each of the axes; [k]: where the control points are on the tangents *)
Definition circle_path (c : Q * Q) (r k : Q) : list (seg Q) :=
  [SMove (fst c + r) (snd c);
   curve (from c r (k * r)) (from c (k * r) r) (from c 0 r); curve (from c (- (k * r)) r) (from c (- r) (k * r)) (from c (- r) 0);
   curve (from c (- r) (- (k * r))) (from c (- (k * r)) (- r)) (from c 0 (- r)); curve (from c (k * r) (- r)) (from c r (- (k * r))) (from c r 0); SClose]%Q.
Definition ellipse_path (c : Q * Q) (a b k : Q) : list (seg Q) :=
  [SMove (fst c - a) (snd c);
   curve (from c (- a) (- (k * b))) (from c (- (k * a)) (- b)) (from c 0 (- b)); curve (from c (k * a) (- b)) (from c a (- (k * b))) (from c a 0);
   curve (from c a (k * b)) (from c (k * a) b) (from c 0 b); curve (from c (- (k * a)) b) (from c (- a) (k * b)) (from c (- a) 0)]%Q.
(** a rectangle with round corners: for each side the line and the corner after it *)
Definition round_path (x y w h rx ry b : Q) : list (seg Q) :=
  let l := x in let r := (x + w)%Q in let d := y in let u := (y + h)%Q in
  [SMove (l + rx) d;
   SLine (r - rx) d; curve (r - b * rx, d) (r, d + b * ry) (r, d + ry);
   SLine r (u - ry); curve (r, u - b * ry) (r - b * rx, u) (r - rx, u);
   SLine (l + rx) u; curve (l + b * rx, u) (l, u - b * ry) (l, u - ry);
   SLine l (d + ry); curve (l, d + b * ry) (l + b * rx, d) (l + rx, d)]%Q.
Definition kappa : Q := 552284749 # 1000000000.
Definition kappa2 : Q := 5522847498308 # 10000000000000.
(** the corners are round from a radius of one unit on *)
Definition rounded (q : Q) : bool := Qle_bool 1 q || Qle_bool q (-1).
Definition path_of (k : call) : list (seg Q) :=
  match k with
  | KMove x y => [SMove x y]
  | KLine x y => [SLine x y]
  | KCurve a b c d e f => [SCurve a b c d e f]
  | KRect x y w h rx ry => if rounded rx || rounded ry then round_path x y w h rx ry (4477 # 10000) else [SRect x y w h]
  | KEllipse x y w h => ellipse_path (x + w / 2, y + h / 2)%Q (w / 2)%Q (h / 2)%Q kappa2
  | KCircle x y r => circle_path (x, y) r kappa
  | KClose => [SClose]
  | _ => []
  end.
Definition paint_of (c : color) : paint :=
  match c with
  | CGray g => (bs "DeviceGray", [millionths g])
  | CRgb r g b => (bs "DeviceRGB", [millionths r; millionths g; millionths b])
  | CCmyk c m y k => (bs "DeviceCMYK", [millionths c; millionths m; millionths y; millionths k])
  | CSep n d _ => (bs "ColorSpace" ++ n, [millionths d])
  | CLab l a b => (bs "ColorSpaceCieLab", [millionths l; millionths a; millionths b])
  | COther => ([], [])
  end.
Definition color_numbers (c : color) : list Q :=
  match c with CGray g => [g] | CRgb r g b => [r; g; b] | CCmyk c m y k => [c; m; y; k] | CSep _ d _ => [d] | CLab l a b => [l; a; b] | COther => [] end.
(** dashes and gaps in units of the pen *)
Definition style_units (style : Z) (one subtract : bool) : list Q :=
  if style =? 1 then (if one then [6; 2] else if subtract then [2; 2] else [3; 1])%Q
  else if style =? 2 then (if one then [2; 2] else if subtract then [] else [1; 1])%Q
  else if style =? 3 then (if one then [3; 2; 1; 2] else if subtract then [2; 2; 0; 2] else [3; 1; 1; 1])%Q
  else if style =? 4 then (if one then [3; 1; 1; 1; 1; 1] else if subtract then [2; 2; 0; 2; 0; 2] else [3; 1; 1; 1; 1; 1])%Q
  else [].
Definition style_dash (style : Z) (inverted : bool) (scale : Q) (subtract : bool) : list Q :=
  let one := Qle_bool (99999 # 100000) scale && Qle_bool scale (100001 # 100000) in
  let body := if (style =? 2) && negb one && subtract then [1 # 1000; 2 * scale; 0; 2 * scale]%Q
              else map (fun u => if one then u else (u * scale)%Q) (style_units style one subtract) in
  if inverted && negb (style =? 0) then (0 :: body ++ [0])%Q else body.
(** tabs become spaces *)
Definition untab (n : nat) (s : list Z) : list Z := flat_map (fun c => if c =? 9 then repeat 32 n else [c]) s.

(** The state which is wanted: that of the machine, with the text state as it was set. What the text calls need: the width of tabs and the font *)
Record wanted := mk_w { w_m : mstate; w_font : option font; w_tab : nat }.
Definition lift (f : mstate -> mstate) (w : wanted) : wanted := mk_w (f (w_m w)) (w_font w) (w_tab w).
Definition on_g (f : gstate -> gstate) : wanted -> wanted := lift (fun m => set_g (f (m_g m)) m).
Definition on_t (f : tstate -> tstate) : wanted -> wanted := lift (fun m => set_t (f (m_t m)) m).
Definition text_event (w : wanted) (moves : list (Z * Z)) (s : list Z) (m : mstate) : mstate :=
  match w_font w with Some f => show (EText moves (f_encode f (untab (w_tab w) s)) (m_g m) (m_t m)) m | None => m end.
Definition clip_to (path : list (seg Z)) (eo : bool) (g : gstate) : gstate := with_clip (g_clip g ++ [(path, eo)]) g.
Definition want (w : wanted) (k : call) : wanted :=
  let m := w_m w in
  match k with
  | KCanvas _ | KFinish => w
  | KSave => lift (fun m => set_stack ((m_g m, m_t m) :: m_stack m) m) w
  | KRestore => lift (fun m => match m_stack m with (g, t) :: r => set_stack r (set_g g m) | [] => m end) w
  | KMatrix a => on_g (with_ctm [map millionths (mat_list a)]) w
  | KWidth q => on_g (with_width (millionths q)) w
  | KMiter q => on_g (with_miter (millionths q)) w
  | KCap z => on_g (with_cap z) w
  | KJoin z => on_g (with_join z) w
  | KIntent n => on_g (with_intent n) w
  | KFill c => on_g (with_fill (paint_of c)) w
  | KStroke c => on_g (with_stroke (paint_of c)) w
  | KStyle st _ i s b => on_g (with_dash (map millionths (style_dash st i s b), 0)) w
  | KExt n _ => on_g (fun g => with_ext (g_ext g ++ [n]) g) w
  | KMove _ _ | KLine _ _ | KCurve _ _ _ _ _ _ | KRect _ _ _ _ _ _ | KEllipse _ _ _ _ | KCircle _ _ _ | KClose =>
    lift (fun m => set_path (m_path m ++ mpath (path_of k)) m) w
  | KHLine _ | KVLine _ | KSmooth _ _ _ _ | KQuad _ _ _ _ | KSmoothQuad _ _ => w
  | KPaint => lift (fun m => set_path [] (show (EPath Stroked (m_path m) (m_g m)) m)) w
  | KPaintFill eo => lift (fun m => set_path [] (show (EPath (Filled eo) (m_path m) (m_g m)) m)) w
  | KPaintBoth eo => lift (fun m => set_path [] (show (EPath (Both eo) (m_path m) (m_g m)) m)) w
  | KClip eo => lift (fun m => set_path [] (set_g (clip_to (m_path m) eo (m_g m)) m)) w
  | KEndPath => lift (set_path []) w
  | KDrawLine a b c d => lift (fun m => show (EPath Stroked (mpath [SMove a b; SLine c d]) (m_g m)) m) w
  | KClipRect x y a b => on_g (clip_to (mpath [SRect x y a b]) false) w
  | KFont f s => mk_w (set_t (with_font (Some (f_name f, millionths s)) (m_t m)) m) (Some f) (w_tab w)
  | KScale q => on_t (with_scale (millionths (q * 100))) w
  | KChar q => on_t (with_char (millionths q)) w
  | KWord q => on_t (with_word (millionths q)) w
  | KMode z => on_t (with_mode (z - 1)) w
  | KTab n => mk_w m (w_font w) n
  | KDrawText s x y => lift (text_event w [(millionths x, millionths y)] s) w
  | KAligned s x y a al =>
    match w_font w with
    | Some f => if Qle_bool a 0 then w else lift (text_event w [(millionths (aligned_x f s x a al), millionths y)] s) w
    | None => w
    end
  | KMultiline _ _ _ _ _ _ _ _ => w
  | KBegin x y => lift (set_mtext (Some [(millionths x, millionths y)])) w
  | KMoveText x y => lift (fun m => match m_text m with Some l => set_mtext (Some (l ++ [(millionths x, millionths y)])) m | None => m end) w
  | KAddText s => lift (fun m => match m_text m with Some l => text_event w l s m | None => m end) w
  | KEnd => lift (set_mtext None) w
  | KXObject n _ x y sx sy => lift (fun m => show (EObject n (with_ctm (map millionths [sx; 0; 0; sy; x; y]%Q :: g_ctm (m_g m)) (m_g m))) m) w
  | KBeginMark t => lift (fun m => set_marks (t :: m_marks m) m) w
  | KEndMark => lift (fun m => set_marks (tl (m_marks m)) m) w
  end.

(** ** Calls which are done right *)
(** numbers which can be written: not beyond 10^12, and no negative one which is as good as nothing *)
Definition fits (q : Q) : Prop := Z.abs (millionths q) < 10 ^ 18 /\ (Qnum q < 0 -> millionths q <> 0).
(** names which can be written as they are *)
Definition plain_name (n : list Z) : Prop := n <> [] /\ Forall (fun c => is_regular c = true /\ is_printable c = true /\ c <> 35 /\ 0 < c < 256) n /\ (length n <= Z.to_nat 4095)%nat.
(** What else the conditions look at: whether the width and the cap were set, and whether the text state was set since it was last written *)
Record book := mk_b { b_width : bool; b_cap : bool; b_synced : bool }.
Definition book_step (w : wanted) (b : book) (k : call) : book :=
  match k with
  | KWidth _ => mk_b true (b_cap b) (b_synced b)
  | KCap _ => mk_b (b_width b) true (b_synced b)
  | KFont _ _ | KScale _ | KChar _ | KWord _ | KMode _ => mk_b (b_width b) (b_cap b) (b_synced b && negb (no_text (w_m w)))
  | KDrawText _ _ _ => mk_b (b_width b) (b_cap b) true
  | KRestore => mk_b (b_width b) (b_cap b) false
  | _ => b
  end.
(** The painter leaves out what it takes to be set already. So a call is done right if: it stands where the standard allows it; the width is
    not first set to 0, nor the cap to Square, which the painter takes as set; the matrix is set once; what Restore brings back is the state as
    it is; the values of the text state do not go back to the initial ones; the mode of text is left alone; a text begins when the text state is
    written; the dashes are those of a solid line. The curves from the last point (KHLine and so on) and the texts of many lines are never done right *)
Definition right (w : wanted) (b : book) (k : call) : Prop :=
  let m := w_m w in
  let g := m_g m in
  let t := m_t m in
  match k with
  | KCanvas _ | KFinish => False
  | KSave => page_level m = true
  | KRestore => page_level m = true /\ exists t0 r, m_stack m = (g, t0) :: r
  | KMatrix a => page_level m = true /\ g_ctm g = [] /\ Forall fits (mat_list a) /\ ~ Forall2 Qeq (mat_list a) (mat_list identity)
  | KWidth q => no_path m = true /\ fits q /\ (b_width b = false -> ~ (q == 0)%Q)
  | KMiter q => no_path m = true /\ fits q
  | KCap z => no_path m = true /\ 0 <= z <= 2 /\ (b_cap b = false -> z <> 2)
  | KJoin z => no_path m = true /\ 0 <= z <= 2
  | KIntent n => no_path m = true /\ plain_name n
  | KFill c | KStroke c => no_path m = true /\ Forall fits (color_numbers c) /\ c <> COther /\ (forall n d alt, c = CSep n d alt -> plain_name (bs "ColorSpace" ++ n))
  | KStyle st _ _ _ _ => no_path m = true /\ st = 0
  | KExt n _ => no_path m = true /\ plain_name n
  | KMove _ _ | KRect _ _ _ _ _ _ | KEllipse _ _ _ _ | KCircle _ _ _ => open_path m = true /\ Forall fits (flat_map seg_numbers (path_of k))
  | KLine _ _ | KCurve _ _ _ _ _ _ | KClose => in_path m = true /\ Forall fits (flat_map seg_numbers (path_of k))
  | KHLine _ | KVLine _ | KSmooth _ _ _ _ | KQuad _ _ _ _ | KSmoothQuad _ _ => False
  | KPaint | KPaintFill _ | KPaintBoth _ | KClip _ | KEndPath => in_path m = true
  | KDrawLine x1 y1 x2 y2 => page_level m = true /\ Forall fits [x1; y1; x2; y2]
  | KClipRect x y w h => page_level m = true /\ Forall fits [x; y; w; h]
  | KFont f s => no_path m = true /\ fits s /\ plain_name (f_name f) /\ (forall f', w_font w = Some f' -> f_id f' = f_id f -> f' = f)
  | KScale q => no_path m = true /\ fits (q * 100) /\ (millionths (q * 100) = 100 * 10 ^ 6 -> t_scale t = 100 * 10 ^ 6)
  | KChar q => no_path m = true /\ fits q /\ (millionths q = 0 -> t_char t = 0)
  | KWord q => no_path m = true /\ fits q /\ (millionths q = 0 -> t_word t = 0)
  | KMode z => z = 1
  | KTab _ => True
  | KDrawText s x y => page_level m = true /\ Forall fits [x; y] /\ ~ In 9 s /\ exists f, w_font w = Some f /\ bytes_ok (f_encode f s)
  | KAligned s x y a al => page_level m = true /\ ~ In 9 s /\ exists f, w_font w = Some f /\ bytes_ok (f_encode f s) /\ Forall fits [aligned_x f s x a al; y]
  | KMultiline _ _ _ _ _ _ _ _ => False
  | KBegin x y => page_level m = true /\ Forall fits [x; y] /\ b_synced b = true
  | KMoveText x y => no_text m = false /\ Forall fits [x; y]
  | KAddText s => no_text m = false /\ ~ In 9 s /\ exists f, w_font w = Some f /\ bytes_ok (f_encode f s)
  | KEnd => no_text m = false
  | KXObject n _ x y sx sy => page_level m = true /\ plain_name n /\ Forall fits [sx; sy; x; y]
  | KBeginMark t => no_path m = true /\ plain_name t
  | KEndMark => no_path m = true /\ m_marks m <> []
  end.
(** a session: calls done right from a state on, and what is wanted at the end *)
Inductive session : wanted -> book -> list call -> wanted -> Prop :=
| ss_end w b : session w b [] w
| ss_call w b k l w' : right w b k -> session (want w k) (book_step w b k) l w' -> session w b (k :: l) w'.
Definition new_wanted : wanted := mk_w begin_m None 4.
Definition new_book : book := mk_b false false true.
(** nothing is left open *)
Definition complete (m : mstate) : Prop := page_level m = true /\ m_stack m = [] /\ m_marks m = [].

(** ** Pages *)
(** what a page shows: its contents are a text of instructions which can be done from the beginning and leave nothing open *)
Definition page_shows (c : canvas) (es : list event) : Prop :=
  exists is m, program_text is (joined (texts (cv_streams c))) /\ execs is begin_m = Some m /\ complete m /\ m_events m = es.
(** calls which draw *)
Definition draws (k : call) : bool :=
  match k with KPaint | KPaintFill _ | KPaintBoth _ | KDrawLine _ _ _ _ | KDrawText _ _ _ | KAddText _ | KXObject _ _ _ _ _ _ => true | _ => false end.
(** the resources which a call needs: type and name *)
Definition color_needs (c : color) : list (list Z * list Z) :=
  match c with CSep n _ _ => [(bs "ColorSpace", bs "ColorSpace" ++ n)] | CLab _ _ _ => [(bs "ColorSpace", bs "ColorSpaceCieLab")] | _ => [] end.
Definition needs (k : call) : list (list Z * list Z) :=
  match k with
  | KFont f _ => [(bs "Font", f_name f)]
  | KFill c | KStroke c => color_needs c
  | KExt n _ => [(bs "ExtGState", n)]
  | KXObject n _ _ _ _ _ => [(bs "XObject", n)]
  | _ => []
  end.
Definition has_resource (c : canvas) (key : list Z * list Z) : Prop := In key (map fst (cv_res c)).

(** ** Curves *)
(** the curves of Bernstein of the third and of the second degree (ISO 32000-1, 8.5.2.2) *)
Definition at3 (a b c d t : Q) : Q := ((1 - t) * (1 - t) * (1 - t) * a + 3 * (t * (1 - t) * (1 - t)) * b + 3 * (t * t * (1 - t)) * c + t * t * t * d)%Q.
Definition at2 (a b c t : Q) : Q := ((1 - t) * (1 - t) * a + 2 * (t * (1 - t)) * b + t * t * c)%Q.
Definition at1 (a b t : Q) : Q := ((1 - t) * a + t * b)%Q.
(** the points of a path after the point [cur] (the lines which close it are not looked at) *)
Fixpoint traced (cur : Q * Q) (l : list (seg Q)) (x y : Q) : Prop :=
  match l with
  | [] => False
  | SMove a b :: r => traced (a, b) r x y
  | SLine a b :: r => (exists t, 0 <= t <= 1 /\ x == at1 (fst cur) a t /\ y == at1 (snd cur) b t)%Q \/ traced (a, b) r x y
  | SCurve a b c d e f :: r => (exists t, 0 <= t <= 1 /\ x == at3 (fst cur) a c e t /\ y == at3 (snd cur) b d f t)%Q \/ traced (e, f) r x y
  | SRect _ _ _ _ :: r | SClose :: r => traced cur r x y
  end.
