(** Model of painting: PdfPainter.cpp (all but the patterns, images and arcs), PdfContents.cpp:62-142, PdfXObjectForm.cpp:73-77 and
    PdfResources.cpp:24-28. Numbers are exact rationals (the code: double); texts are bytes, taken as valid UTF-8. After a raised error the
    painter is not followed further. *)
From Coq Require Import String QArith.
From Verif Require Import Base TokModel WriteModel.
Local Open Scope Z_scope.

(** ** Numbers *)
(** PdfStringStream.cpp:22-34, PdfDeclarationsPrivate.cpp:977-987 and 1198-1218: six decimals (the precision of a new stream), half to even,
    without the trailing zeroes. Simplification: SetPrecision (PdfPainter.cpp:1179-1187) is not called *)
Definition q_micro (q : Q) : Z := round_div (Z.abs (Qnum q) * 10 ^ 6) (Zpos (Qden q)).
Definition num_text (q : Q) : list Z :=
  remove_trailing_zeroes ((if Qnum q <? 0 then [45] else []) ++ dec (q_micro q / 10 ^ 6) ++ [46] ++ fixed_digits 6 (q_micro q mod 10 ^ 6)).
(** [<< x << " "] for each of the numbers *)
Definition nums_text (l : list Q) : list Z := flat_map (fun q => num_text q ++ [32]) l.
Definition nl : list Z := [10].

(** ** Colours, fonts and states *)
(** PdfColor.h: what SetFillColor and operator== look at. [COther]: the colour spaces Unknown and Indexed *)
Inductive color := CGray (g : Q) | CRgb (r g b : Q) | CCmyk (c m y k : Q) | CSep (name : list Z) (density : Q) (alt : list Q) | CLab (l a b : Q) | COther.
(** A font: its identity (the pointer), its identifier "Ft" + object number (PdfFont.cpp:146-152), its encoding of texts
    (PdfEncoding.cpp ConvertToEncoded) and its metrics at a text state (PdfFont.cpp) *)
Record font := mk_font { f_id : Z; f_name : list Z; f_encode : list Z -> list Z; f_length : list Z -> Q; f_spacing : Q; f_ascent : Q; f_descent : Q }.
(** PdfGraphicsState.h:16-31; the initial values PdfGraphicsState.cpp:12-18 and PdfColor.cpp:303-311 *)
Definition matrix : Type := (Q * Q * Q * Q * Q * Q)%type.
Record gcache := mk_gc { c_ctm : matrix; c_width : Q; c_miter : Q; c_cap : Z; c_join : Z; c_intent : list Z; c_fill : color; c_stroke : color }.
Definition identity : matrix := (1, 0, 0, 1, 0, 0)%Q.
Definition first_gc : gcache := mk_gc identity 0 10 2 0 [] (CGray 0) (CGray 0).
(** PdfTextState.h, PdfTextState.cpp: no font, size -1, scale 1, no spacing, Fill. The modes are those of PdfDeclarations.h:341-352:
    0 is Unknown, 1 Fill, ..., 8 AddToClipPath *)
Record tcache := mk_tc { c_font : option font; c_size : Q; c_scale : Q; c_char : Q; c_wspace : Q; c_mode : Z }.
Definition first_tc : tcache := mk_tc None (-1) 1 0 0 1.

(** ** Canvases *)
(** A page with the streams of its contents ([None]: no stream there) or a form with its stream, and the resources by type and name *)
Record canvas := mk_canvas { cv_form : bool; cv_streams : list (option (list Z)); cv_res : list (list Z * list Z * Z) }.
Definition stream_text (x : option (list Z)) : list Z := match x with Some t => t | None => [] end.
(** PdfContents.cpp:133-142 copyTo: the streams one after the other *)
Definition copy_to (l : list (option (list Z))) : list Z := flat_map stream_text l.
(** PdfPainter.h:34-41 *)
Record pflags := mk_pf { fl_prepend : bool; fl_noprior : bool; fl_nosave : bool }.
(** PdfContents.cpp:80-131 GetStreamForAppending: a contents dictionary has become an array of its stream; the new stream is empty. Forms
    (PdfXObjectForm.cpp:73-77): the stream of the form *)
Definition stream_for_appending (fl : pflags) (c : canvas) : canvas :=
  if cv_form c then mk_canvas true (match cv_streams c with [] => [Some []] | l => l end) (cv_res c)
  else
    let old := copy_to (cv_streams c) in
    let l := if fl_noprior fl then cv_streams c else match old with [] => cv_streams c | _ => [Some (bs "q" ++ nl ++ old ++ nl ++ bs "Q")] end in
    mk_canvas false (if fl_prepend fl then Some [] :: l else l ++ [Some []]) (cv_res c).
(** The stream which stream_for_appending gave *)
Definition is_first (fl : pflags) (c : canvas) : bool := cv_form c || fl_prepend fl.
Definition get_out (fl : pflags) (c : canvas) : list Z :=
  if is_first fl c then match cv_streams c with x :: _ => stream_text x | [] => [] end else stream_text (last (cv_streams c) None).
Definition set_out (fl : pflags) (t : list Z) (c : canvas) : canvas :=
  mk_canvas (cv_form c)
    (if is_first fl c then match cv_streams c with _ :: r => Some t :: r | [] => [Some t] end else removelast (cv_streams c) ++ [Some t]) (cv_res c).
(** PdfResources.cpp:24-28, 132-146: the key of a resource is set *)
Definition same_key (ty n : list Z) (x : list Z * list Z * Z) : bool := beq (fst (fst x)) ty && beq (snd (fst x)) n.
Definition add_resource (ty n : list Z) (o : Z) (c : canvas) : canvas :=
  mk_canvas (cv_form c) (cv_streams c) ((ty, n, o) :: filter (fun x => negb (same_key ty n x)) (cv_res c)).

(** ** The painter *)
Record painter := mk_pt
  { p_flags : pflags; p_canvas : option Z; p_open : bool; p_tmp : list Z; p_gc : gcache; p_tc : tcache; p_tab : nat; p_text : bool;
    p_l3 : Q * Q; p_lc : Q * Q; p_lr : Q * Q; p_world : Z -> canvas }.
Definition new_painter (fl : pflags) (w : Z -> canvas) : painter := mk_pt fl None false [] first_gc first_tc 4 false (0, 0)%Q (0, 0)%Q (0, 0)%Q w.
Definition set_world (w : Z -> canvas) (p : painter) : painter :=
  mk_pt (p_flags p) (p_canvas p) (p_open p) (p_tmp p) (p_gc p) (p_tc p) (p_tab p) (p_text p) (p_l3 p) (p_lc p) (p_lr p) w.
Definition upd (w : Z -> canvas) (x : Z) (c : canvas) : Z -> canvas := fun y => if y =? x then c else w y.
Definition set_open (o : bool) (p : painter) : painter :=
  mk_pt (p_flags p) (p_canvas p) o (p_tmp p) (p_gc p) (p_tc p) (p_tab p) (p_text p) (p_l3 p) (p_lc p) (p_lr p) (p_world p).
Definition set_tmp (t : list Z) (p : painter) : painter :=
  mk_pt (p_flags p) (p_canvas p) (p_open p) t (p_gc p) (p_tc p) (p_tab p) (p_text p) (p_l3 p) (p_lc p) (p_lr p) (p_world p).
Definition set_gc (g : gcache) (p : painter) : painter :=
  mk_pt (p_flags p) (p_canvas p) (p_open p) (p_tmp p) g (p_tc p) (p_tab p) (p_text p) (p_l3 p) (p_lc p) (p_lr p) (p_world p).
Definition set_tc (t : tcache) (p : painter) : painter :=
  mk_pt (p_flags p) (p_canvas p) (p_open p) (p_tmp p) (p_gc p) t (p_tab p) (p_text p) (p_l3 p) (p_lc p) (p_lr p) (p_world p).
Definition set_text (b : bool) (p : painter) : painter :=
  mk_pt (p_flags p) (p_canvas p) (p_open p) (p_tmp p) (p_gc p) (p_tc p) (p_tab p) b (p_l3 p) (p_lc p) (p_lr p) (p_world p).
Definition set_points (l3 lc lr : Q * Q) (p : painter) : painter :=
  mk_pt (p_flags p) (p_canvas p) (p_open p) (p_tmp p) (p_gc p) (p_tc p) (p_tab p) (p_text p) l3 lc lr (p_world p).
Definition set_tab (n : nat) (p : painter) : painter :=
  mk_pt (p_flags p) (p_canvas p) (p_open p) (p_tmp p) (p_gc p) (p_tc p) n (p_text p) (p_l3 p) (p_lc p) (p_lr p) (p_world p).
Definition set_canvas_field (c : option Z) (p : painter) : painter :=
  mk_pt (p_flags p) c (p_open p) (p_tmp p) (p_gc p) (p_tc p) (p_tab p) (p_text p) (p_l3 p) (p_lc p) (p_lr p) (p_world p).

(** 118-171 finishDrawing. The stream of a page is new, and so empty. GetOutputStream() replaces the data of a stream and
    GetOutputStream(true) keeps it (PdfObjectStream.cpp:480-513) *)
Definition out_prior (fl : pflags) (old : list Z) : list Z :=
  if fl_noprior fl then match old with [] => [] | _ => nl end
  else match old with [] => [] | _ => old ++ bs "q" ++ nl ++ old ++ bs "Q" ++ nl end.
Definition out_own (fl : pflags) (tmp : list Z) : list Z := if fl_nosave fl then tmp else bs "q" ++ nl ++ tmp ++ bs "Q" ++ nl.
Definition finish (p : painter) : painter :=
  let p1 :=
    match p_open p, p_canvas p with
    | true, Some x =>
      let c := p_world p x in
      set_world (upd (p_world p) x (set_out (p_flags p) (out_prior (p_flags p) (get_out (p_flags p) c) ++ out_own (p_flags p) (p_tmp p)) c)) p
    | _, _ => p
    end in
  set_tmp [] p1.
(** 88-98 SetCanvas, 100-116 FinishDrawing *)
Definition set_canvas (x : Z) (p : painter) : painter :=
  if match p_canvas p with Some y => y =? x | None => false end then p else set_open false (set_canvas_field (Some x) (finish p)).
Definition finish_drawing (p : painter) : painter := set_open false (set_canvas_field None (finish p)).

(** 1518-1525 checkStream. PDFMM_RAISE_LOGIC_IF is EInternalLogic *)
Definition check_stream (p : painter) : res painter :=
  if p_open p then Ok p
  else match p_canvas p with
       | None => Err EInternalLogic
       | Some x => Ok (set_open true (set_world (upd (p_world p) x (stream_for_appending (p_flags p) (p_world p x))) p))
       end.
Definition write_tmp (t : list Z) (p : painter) : painter := set_tmp (p_tmp p ++ t) p.
Definition emit (t : list Z) (p : painter) : res painter := do p <- check_stream p; Ok (write_tmp t p).
(** 1215-1221 addToPageResources *)
Definition add_to_resources (ty n : list Z) (o : Z) (p : painter) : res painter :=
  match p_canvas p with
  | None => Err EInvalidHandle
  | Some x => Ok (set_world (upd (p_world p) x (add_resource ty n o (p_world p x))) p)
  end.
(** 1527-1543 *)
Definition check_font (p : painter) : res font := match c_font (p_tc p) with Some f => Ok f | None => Err EInvalidHandle end.
Definition check_text (open : bool) (p : painter) : res unit := if Bool.eqb (p_text p) open then Ok tt else Err EInternalLogic.

(** ** Paths *)
(** 937-... the simple calls: numbers and operators of one line *)
Definition op_line (l : list Q) (ops : string) : list Z := nums_text l ++ bs ops ++ nl.
Definition move_to (x y : Q) : painter -> res painter := emit (op_line [x; y] "m").
Definition line_to (x y : Q) : painter -> res painter := emit (op_line [x; y] "l").
Definition curve_to (a b c d e f : Q) : painter -> res painter := emit (op_line [a; b; c; d; e; f] "c").
(** 851-859 *)
Definition hline_to (x : Q) (p : painter) : res painter := line_to x (snd (p_l3 p)) p.
Definition vline_to (y : Q) (p : painter) : res painter := line_to (fst (p_l3 p)) y p.
(** 861-884, 886-911, 913-932. The products with 1.0 / 3.0 are taken as exact quotients *)
Definition smooth_to (x2 y2 x3 y3 : Q) (p : painter) : res painter :=
  let px := (2 * fst (p_lc p) - fst (p_lr p))%Q in
  let py := (2 * snd (p_lc p) - snd (p_lr p))%Q in
  curve_to px py x2 y2 x3 y3 (set_points (x3, y3) (x3, y3) (x2, y2) p).
Definition third (q : Q) : Q := (q * (1 # 3))%Q.
Definition quad_to (x1 y1 x3 y3 : Q) (p : painter) : res painter :=
  let px := third (fst (p_lc p) + 2 * x1) in
  let py := third (snd (p_lc p) + 2 * y1) in
  let px2 := third (x3 + 2 * px) in
  let py2 := third (y3 + 2 * py) in
  curve_to px py px2 py2 x3 y3 (set_points (x3, y3) (x3, y3) (px2, py2) p).
Definition smooth_quad_to (x3 y3 : Q) (p : painter) : res painter :=
  let xc := (2 * fst (p_lc p) - fst (p_lr p))%Q in
  let yc := (2 * snd (p_lc p) - snd (p_lr p))%Q in
  curve_to (third (fst (p_lc p) + 2 * xc)) (third (snd (p_lc p) + 2 * yc)) (third (x3 + 2 * xc)) (third (y3 + 2 * yc)) x3 y3
    (set_points (x3, y3) (x3, y3) (xc, yc) p).
(** One call after the other *)
Fixpoint all_of (l : list (painter -> res painter)) (p : painter) : res painter :=
  match l with [] => Ok p | f :: r => do p <- f p; all_of r p end.
(** 364-392 Rectangle. static_cast<int> drops the fraction *)
Definition trunc (q : Q) : Z := Z.quot (Qnum q) (Zpos (Qden q)).
Definition round_b : Q := 4477 # 10000.
Definition rectangle (x y w h rx ry : Q) : painter -> res painter :=
  if negb (trunc rx =? 0) || negb (trunc ry =? 0) then
    let b := round_b in
    all_of [ (fun p => check_stream p); move_to (x + rx) y; line_to (x + w - rx) y;
             curve_to (x + w - rx * b) y (x + w) (y + ry * b) (x + w) (y + ry);
             line_to (x + w) (y + h - ry);
             curve_to (x + w) (y + h - ry * b) (x + w - rx * b) (y + h) (x + w - rx) (y + h);
             line_to (x + rx) (y + h);
             curve_to (x + rx * b) (y + h) x (y + h - ry * b) x (y + h - ry);
             line_to x (y + ry);
             curve_to x (y + ry * b) (x + rx * b) y (x + rx) y ]%Q
  else emit (op_line [x; y; w; h] "re").
(** 1223-1262 convertRectToBezier: the thirteen points *)
Definition ellipse_points (x y w h : Q) : list (Q * Q) :=
  let offx := (w * (2761423749154 # 10000000000000))%Q in
  let offy := (h * (2761423749154 # 10000000000000))%Q in
  let cx := (x + w / 2)%Q in
  let cy := (y + h / 2)%Q in
  [(x, cy); (x, cy - offy); (cx - offx, y); (cx, y); (cx + offx, y); (x + w, cy - offy); (x + w, cy); (x + w, cy + offy); (cx + offx, y + h);
   (cx, y + h); (cx - offx, y + h); (x, cy + offy); (x, cy)]%Q.
(** 394-417 Ellipse *)
Fixpoint curves_text (l : list (Q * Q)) : list Z :=
  match l with
  | a :: b :: c :: r => op_line [fst a; snd a; fst b; snd b; fst c; snd c] "c" ++ curves_text r
  | _ => []
  end.
Definition ellipse (x y w h : Q) : painter -> res painter :=
  match ellipse_points x y w h with
  | s :: r => emit (op_line [fst s; snd s] "m" ++ curves_text r)
  | [] => fun p => Ok p
  end.
(** 34, 419-438 Circle *)
Definition arc_magic : Q := 552284749 # 1000000000.
Definition circle (x y r : Q) : painter -> res painter :=
  let k := arc_magic in
  all_of [ (fun p => check_stream p); move_to (x + r) y;
           curve_to (x + r) (y + r * k) (x + r * k) (y + r) x (y + r);
           curve_to (x - r * k) (y + r) (x - r) (y + r * k) (x - r) y;
           curve_to (x - r) (y - r * k) (x - r * k) (y - r) x (y - r);
           curve_to (x + r * k) (y - r) (x + r) (y - r * k) (x + r) y;
           emit (op_line [] "h") ]%Q.

(** ** Graphics state *)
(** 213-335 SetStrokeStyle: 0 Solid, 1 Dash, 2 Dot, 3 DashDot, 4 DashDotDot, 5 Custom *)
Definition near_one (s : Q) : bool := Qle_bool (1 - (1 # 100000)) s && Qle_bool s (1 + (1 # 100000)).
Definition joined_nums (l : list Q) : list Z := match rev l with [] => [] | q :: r => nums_text (rev r) ++ num_text q end.
Definition stroke_style (style : Z) (custom : list Z) (inverted : bool) (scale : Q) (subtract : bool) (p : painter) : res painter :=
  do p <- check_stream p;
  let inv := inverted && negb (style =? 0) && negb (style =? 5) in
  let s := scale in
  do body <-
    (if style =? 0 then Ok []
     else if style =? 1 then Ok (if near_one s then bs "6 2" else if subtract then joined_nums [s * 2; s * 2]%Q else joined_nums [s * 3; s * 1]%Q)
     else if style =? 2 then Ok (if near_one s then bs "2 2" else if subtract then joined_nums [1 # 1000; 2 * s; 0; 2 * s]%Q else joined_nums [s * 1; s * 1]%Q)
     else if style =? 3 then Ok (if near_one s then bs "3 2 1 2" else if subtract then joined_nums [s * 2; s * 2; 0; s * 2]%Q else joined_nums [s * 3; s * 1; s * 1; s * 1]%Q)
     else if style =? 4 then Ok (if near_one s then bs "3 1 1 1 1 1" else if subtract then joined_nums [s * 2; s * 2; 0; s * 2; 0; s * 2]%Q
                                 else joined_nums [s * 3; s * 1; s * 1; s * 1; s * 1; s * 1]%Q)
     else if style =? 5 then match custom with [] => Err EInvalidStrokeStyle | _ => Ok custom end
     else Err EInvalidStrokeStyle);
  Ok (write_tmp ((if style =? 5 then [] else bs "[") ++ (if inv then bs "0 " else []) ++ body ++ (if inv then bs " 0" else []) ++
                 (if style =? 5 then [] else bs "] 0") ++ bs " d" ++ nl) p).
(** 1311-1361 SetFillColor and 1363-1413 SetStrokeColor, which differ in the operators. Separation and Lab add the colour space to the
    resources (PdfResources.cpp:82-123); its object is not modelled: 0 *)
Definition color_text (stroke : bool) (c : color) : res (list Z) :=
  match c with
  | CRgb r g b => Ok (op_line [r; g; b] (if stroke then "RG" else "rg"))
  | CCmyk c m y k => Ok (op_line [c; m; y; k] (if stroke then "K" else "k"))
  | CGray g => Ok (op_line [g] (if stroke then "G" else "g"))
  | CSep n d _ =>
    do e <- escape_name n;
    Ok (bs "/ColorSpace" ++ e ++ bs (if stroke then " CS " else " cs ") ++ num_text d ++ bs (if stroke then " SCN" else " scn") ++ nl)
  | CLab l a b => Ok (bs "/ColorSpaceCieLab" ++ bs (if stroke then " CS " else " cs ") ++ op_line [l; a; b] (if stroke then "SCN" else "scn"))
  | COther => Err ECannotConvertColor
  end.
Definition color_resource (c : color) (p : painter) : res painter :=
  match c with
  | CSep n _ _ => add_to_resources (bs "ColorSpace") (bs "ColorSpace" ++ n) 0 p
  | CLab _ _ _ => add_to_resources (bs "ColorSpace") (bs "ColorSpaceCieLab") 0 p
  | _ => Ok p
  end.
Definition set_color (stroke : bool) (c : color) (p : painter) : res painter :=
  do p <- check_stream p;
  do p <- color_resource c p;
  do t <- color_text stroke c;
  Ok (write_tmp t p).
(** PdfColor.cpp:1126-1134 operator== *)
Fixpoint qs_eqb (a b : list Q) : bool :=
  match a, b with [], [] => true | x :: r, y :: s => Qeq_bool x y && qs_eqb r s | _, _ => false end.
Definition color_parts (c : color) : Z * list Z * list Q :=
  match c with
  | CGray g => (0, [], [g])
  | CRgb r g b => (1, [], [r; g; b])
  | CCmyk c m y k => (2, [], [c; m; y; k])
  | CSep n d alt => (3, n, d :: alt)
  | CLab l a b => (4, [], [l; a; b])
  | COther => (5, [], [])
  end.
Definition color_eqb (a b : color) : bool :=
  let '(i, n, l) := color_parts a in let '(j, m, k) := color_parts b in (i =? j) && beq n m && qs_eqb l k.
Definition mat_list (m : matrix) : list Q := let '(a, b, c, d, e, f) := m in [a; b; c; d; e; f].

(** 1564-1637 PdfGraphicsStateWrapper: a value which is the one in the cache is not set again *)
Definition set_matrix (m : matrix) (p : painter) : res painter :=
  let g := p_gc p in
  if qs_eqb (mat_list (c_ctm g)) (mat_list m) then Ok p
  else emit (op_line (mat_list m) "cm") (set_gc (mk_gc m (c_width g) (c_miter g) (c_cap g) (c_join g) (c_intent g) (c_fill g) (c_stroke g)) p).
Definition set_width (q : Q) (p : painter) : res painter :=
  let g := p_gc p in
  if Qeq_bool (c_width g) q then Ok p
  else emit (op_line [q] "w") (set_gc (mk_gc (c_ctm g) q (c_miter g) (c_cap g) (c_join g) (c_intent g) (c_fill g) (c_stroke g)) p).
Definition set_miter (q : Q) (p : painter) : res painter :=
  let g := p_gc p in
  if Qeq_bool (c_miter g) q then Ok p
  else emit (op_line [q] "M") (set_gc (mk_gc (c_ctm g) (c_width g) q (c_cap g) (c_join g) (c_intent g) (c_fill g) (c_stroke g)) p).
Definition set_cap (z : Z) (p : painter) : res painter :=
  let g := p_gc p in
  if c_cap g =? z then Ok p
  else emit (dec_signed z ++ bs " J" ++ nl) (set_gc (mk_gc (c_ctm g) (c_width g) (c_miter g) z (c_join g) (c_intent g) (c_fill g) (c_stroke g)) p).
Definition set_join (z : Z) (p : painter) : res painter :=
  let g := p_gc p in
  if c_join g =? z then Ok p
  else emit (dec_signed z ++ bs " j" ++ nl) (set_gc (mk_gc (c_ctm g) (c_width g) (c_miter g) (c_cap g) z (c_intent g) (c_fill g) (c_stroke g)) p).
Definition set_intent (n : list Z) (p : painter) : res painter :=
  let g := p_gc p in
  if beq (c_intent g) n then Ok p
  else emit (bs "/" ++ n ++ bs " ri" ++ nl) (set_gc (mk_gc (c_ctm g) (c_width g) (c_miter g) (c_cap g) (c_join g) n (c_fill g) (c_stroke g)) p).
Definition set_fill (c : color) (p : painter) : res painter :=
  let g := p_gc p in
  if color_eqb (c_fill g) c then Ok p
  else set_color false c (set_gc (mk_gc (c_ctm g) (c_width g) (c_miter g) (c_cap g) (c_join g) (c_intent g) c (c_stroke g)) p).
Definition set_stroke (c : color) (p : painter) : res painter :=
  let g := p_gc p in
  if color_eqb (c_stroke g) c then Ok p
  else set_color true c (set_gc (mk_gc (c_ctm g) (c_width g) (c_miter g) (c_cap g) (c_join g) (c_intent g) (c_fill g) c) p).

(** ** Text *)
(** 1440-1446, 1454-1458, 1466-1470, 1478-1482, 1490-1494 *)
Definition put_font (f : font) (size : Q) : painter -> res painter := emit (bs "/" ++ f_name f ++ bs " " ++ num_text size ++ bs " Tf" ++ nl).
Definition put_scale (q : Q) : painter -> res painter := emit (op_line [q * 100]%Q "Tz").
Definition put_char (q : Q) : painter -> res painter := emit (op_line [q] "Tc").
Definition put_wspace (q : Q) : painter -> res painter := emit (op_line [q] "Tw").
Definition put_mode (z : Z) : painter -> res painter := emit (dec_signed z ++ bs " Tr" ++ nl).
(** 1415-1431 writeTextState *)
Definition write_text_state (p : painter) : res painter :=
  let t := p_tc p in
  do p <- match c_font t with Some f => put_font f (c_size t) p | None => Ok p end;
  do p <- if Qeq_bool (c_scale t) 1 then Ok p else put_scale (c_scale t) p;
  do p <- if Qeq_bool (c_char t) 0 then Ok p else put_char (c_char t) p;
  do p <- if Qeq_bool (c_wspace t) 0 then Ok p else put_wspace (c_wspace t) p;
  if c_mode t =? 1 then Ok p else put_mode (c_mode t) p.
(** 1639-1686 PdfTextStateWrapper, with 1433-1438, 1448-1452, 1460-1464, 1472-1476, 1484-1488: written at once only in an open text *)
Definition in_text (f : painter -> res painter) (p : painter) : res painter := if p_text p then f p else Ok p.
Definition set_font (f : font) (size : Q) (p : painter) : res painter :=
  let t := p_tc p in
  if match c_font t with Some g => f_id g =? f_id f | None => false end && Qeq_bool (c_size t) size then Ok p
  else
    do p <- add_to_resources (bs "Font") (f_name f) (f_id f) (set_tc (mk_tc (Some f) size (c_scale t) (c_char t) (c_wspace t) (c_mode t)) p);
    in_text (put_font f size) p.
Definition set_scale (q : Q) (p : painter) : res painter :=
  let t := p_tc p in
  if Qeq_bool (c_scale t) q then Ok p else in_text (put_scale q) (set_tc (mk_tc (c_font t) (c_size t) q (c_char t) (c_wspace t) (c_mode t)) p).
Definition set_char (q : Q) (p : painter) : res painter :=
  let t := p_tc p in
  if Qeq_bool (c_char t) q then Ok p else in_text (put_char q) (set_tc (mk_tc (c_font t) (c_size t) (c_scale t) q (c_wspace t) (c_mode t)) p).
Definition set_wspace (q : Q) (p : painter) : res painter :=
  let t := p_tc p in
  if Qeq_bool (c_wspace t) q then Ok p else in_text (put_wspace q) (set_tc (mk_tc (c_font t) (c_size t) (c_scale t) (c_char t) q (c_mode t)) p).
Definition set_mode (z : Z) (p : painter) : res painter :=
  let t := p_tc p in
  if c_mode t =? z then Ok p else in_text (put_mode z) (set_tc (mk_tc (c_font t) (c_size t) (c_scale t) (c_char t) (c_wspace t) z) p).
(** 1499-1516 and 1545-1562 expandTabs. A character of valid UTF-8 is written as it was read *)
Fixpoint expand_go (tab : nat) (s : list Z) : list Z :=
  match s with [] => [] | c :: r => (if c =? 9 then repeat 32 tab else []) ++ c :: expand_go tab r end.
Definition expand_tabs (tab : nat) (s : list Z) : list Z := if existsb (Z.eqb 9) s then expand_go tab s else s.
(** PdfFont.cpp:159-166 WriteStringToStream *)
Definition string_text (f : font) (s : list Z) : list Z := bs "<" ++ flat_map hex_byte (f_encode f s) ++ bs ">".
(** 452-488 drawText without underline and strike out, which no caller asks for *)
Definition draw_string (f : font) (s : list Z) (x y : Q) (p : painter) : painter :=
  write_tmp (nums_text [x; y] ++ bs "Td " ++ string_text f (expand_tabs (p_tab p) s) ++ bs " Tj" ++ nl) p.
(** 440-450 DrawText *)
Definition draw_text (s : list Z) (x y : Q) (p : painter) : res painter :=
  do p <- check_stream p;
  do _ <- check_text false p;
  do f <- check_font p;
  do p <- write_text_state (write_tmp (bs "BT" ++ nl) p);
  Ok (write_tmp (bs "ET" ++ nl) (draw_string f s x y p)).
(** 776-792 drawTextAligned: 0 left, 1 centre, 2 right *)
Definition aligned_x (f : font) (s : list Z) (x width : Q) (align : Z) : Q :=
  if align =? 1 then (x + (width - f_length f s) / 2)%Q else if align =? 2 then (x + (width - f_length f s))%Q else x.
(** 553-566 DrawTextAligned *)
Definition draw_aligned (s : list Z) (x y width : Q) (align : Z) (p : painter) : res painter :=
  if Qle_bool width 0 then Ok p
  else
    do p <- check_stream p;
    do _ <- check_text false p;
    do f <- check_font p;
    do p <- write_text_state (write_tmp (bs "BT" ++ nl) p);
    Ok (write_tmp (bs "ET" ++ nl) (draw_string f s (aligned_x f s x width align) y p)).
(** 337-350 SetClipRect *)
Definition clip_rect (x y w h : Q) : painter -> res painter := emit (op_line [x; y; w; h] "re W n").
(** 530-551 DrawMultiLineText, 568-606 drawMultiLineText with the one line of 610-... getMultiLineTextAsLines. Vertical alignment: 0 top, 1 centre,
    2 bottom *)
Definition draw_multiline (s : list Z) (x y w h : Q) (ha va : Z) (clip : bool) (p : painter) : res painter :=
  do p <- check_stream p;
  do f <- check_font p;
  do _ <- check_text false p;
  if Qle_bool w 0 || Qle_bool h 0 then Ok p
  else
    do p <- write_text_state (write_tmp (bs "BT" ++ nl) p);
    do p <- emit (bs "q" ++ nl) p;
    do p <- if clip then clip_rect x y w h p else Ok p;
    let line := expand_tabs (p_tab p) s in
    let gap := (f_spacing f - f_ascent f + f_descent f)%Q in
    let y1 := (if va =? 1 then y + (h - (h - f_spacing f) / 2) else if va =? 2 then y + f_spacing f else y + h)%Q in
    let y2 := (y1 - (f_ascent f + gap / 2))%Q in
    do p <- emit (bs "Q" ++ nl) (match line with [] => p | _ => draw_string f line (aligned_x f line x w ha) y2 p end);
    Ok (write_tmp (bs "ET" ++ nl) p).
(** 490-498, 500-506, 508-519, 521-528 *)
Definition begin_text (x y : Q) (p : painter) : res painter :=
  do p <- check_stream p;
  do _ <- check_text false p;
  Ok (set_text true (write_tmp (bs "BT" ++ nl ++ op_line [x; y] "Td") p)).
Definition move_text (x y : Q) (p : painter) : res painter :=
  do p <- check_stream p;
  do _ <- check_text true p;
  Ok (write_tmp (op_line [x; y] "Td") p).
Definition add_text (s : list Z) (p : painter) : res painter :=
  do p <- check_stream p;
  do f <- check_font p;
  do _ <- check_text true p;
  Ok (write_tmp (string_text f (expand_tabs (p_tab p) s) ++ bs " Tj" ++ nl) p).
Definition end_text (p : painter) : res painter :=
  do p <- check_stream p;
  do _ <- check_text true p;
  Ok (set_text false (write_tmp (bs "ET" ++ nl) p)).

(** ** Objects *)
(** 801-815 DrawXObject *)
Definition draw_xobject (n : list Z) (o : Z) (x y sx sy : Q) (p : painter) : res painter :=
  do p <- check_stream p;
  do p <- add_to_resources (bs "XObject") n o p;
  Ok (write_tmp (bs "q" ++ nl ++ num_text sx ++ bs " 0 0 " ++ nums_text [sy; x; y] ++ bs "cm" ++ nl ++ bs "/" ++ n ++ bs " Do" ++ nl ++ bs "Q" ++ nl) p).
(** 1189-1195 SetExtGState *)
Definition set_ext (n : list Z) (o : Z) (p : painter) : res painter :=
  do p <- check_stream p;
  do p <- add_to_resources (bs "ExtGState") n o p;
  Ok (write_tmp (bs "/" ++ n ++ bs " gs" ++ nl) p).

(** ** Calls *)
Inductive call :=
| KCanvas (x : Z) | KFinish | KSave | KRestore
| KMatrix (m : matrix) | KWidth (q : Q) | KMiter (q : Q) | KCap (z : Z) | KJoin (z : Z) | KIntent (n : list Z) | KFill (c : color) | KStroke (c : color)
| KStyle (style : Z) (custom : list Z) (inverted : bool) (scale : Q) (subtract : bool) | KExt (n : list Z) (o : Z)
| KMove (x y : Q) | KLine (x y : Q) | KCurve (a b c d e f : Q) | KHLine (x : Q) | KVLine (y : Q) | KSmooth (x2 y2 x3 y3 : Q) | KQuad (x1 y1 x3 y3 : Q)
| KSmoothQuad (x3 y3 : Q) | KRect (x y w h rx ry : Q) | KEllipse (x y w h : Q) | KCircle (x y r : Q) | KClose
| KPaint | KPaintFill (eo : bool) | KPaintBoth (eo : bool) | KClip (eo : bool) | KEndPath | KDrawLine (a b c d : Q) | KClipRect (x y w h : Q)
| KFont (f : font) (size : Q) | KScale (q : Q) | KChar (q : Q) | KWord (q : Q) | KMode (z : Z) | KTab (n : nat)
| KDrawText (s : list Z) (x y : Q) | KAligned (s : list Z) (x y w : Q) (align : Z) | KMultiline (s : list Z) (x y w h : Q) (ha va : Z) (clip : bool)
| KBegin (x y : Q) | KMoveText (x y : Q) | KAddText (s : list Z) | KEnd
| KXObject (n : list Z) (o : Z) (x y sx sy : Q) | KBeginMark (tag : list Z) | KEndMark.
(** 817-821 and 1121-1125 ClosePath, Close; 1127-1164; 1166-1176; 352-362; 1204-1213, which do not ask for the stream; PdfPainter.h:637 *)
Definition step (p : painter) (k : call) : res painter :=
  match k with
  | KCanvas x => Ok (set_canvas x p)
  | KFinish => Ok (finish_drawing p)
  | KSave => emit (bs "q" ++ nl) p
  | KRestore => emit (bs "Q" ++ nl) p
  | KMatrix m => set_matrix m p
  | KWidth q => set_width q p
  | KMiter q => set_miter q p
  | KCap z => set_cap z p
  | KJoin z => set_join z p
  | KIntent n => set_intent n p
  | KFill c => set_fill c p
  | KStroke c => set_stroke c p
  | KStyle st c i s b => stroke_style st c i s b p
  | KExt n o => set_ext n o p
  | KMove x y => move_to x y p
  | KLine x y => line_to x y p
  | KCurve a b c d e f => curve_to a b c d e f p
  | KHLine x => hline_to x p
  | KVLine y => vline_to y p
  | KSmooth x2 y2 x3 y3 => smooth_to x2 y2 x3 y3 p
  | KQuad x1 y1 x3 y3 => quad_to x1 y1 x3 y3 p
  | KSmoothQuad x3 y3 => smooth_quad_to x3 y3 p
  | KRect x y w h rx ry => rectangle x y w h rx ry p
  | KEllipse x y w h => ellipse x y w h p
  | KCircle x y r => circle x y r p
  | KClose => emit (op_line [] "h") p
  | KPaint => emit (op_line [] "S") p
  | KPaintFill eo => emit (op_line [] (if eo then "f*" else "f")) p
  | KPaintBoth eo => emit (op_line [] (if eo then "B*" else "B")) p
  | KClip eo => emit (op_line [] (if eo then "W* n" else "W n")) p
  | KEndPath => emit (op_line [] "n") p
  | KDrawLine a b c d => emit (nums_text [a; b] ++ bs "m " ++ op_line [c; d] "l S") p
  | KClipRect x y w h => clip_rect x y w h p
  | KFont f size => set_font f size p
  | KScale q => set_scale q p
  | KChar q => set_char q p
  | KWord q => set_wspace q p
  | KMode z => set_mode z p
  | KTab n => Ok (set_tab n p)
  | KDrawText s x y => draw_text s x y p
  | KAligned s x y w a => draw_aligned s x y w a p
  | KMultiline s x y w h ha va c => draw_multiline s x y w h ha va c p
  | KBegin x y => begin_text x y p
  | KMoveText x y => move_text x y p
  | KAddText s => add_text s p
  | KEnd => end_text p
  | KXObject n o x y sx sy => draw_xobject n o x y sx sy p
  | KBeginMark tag => Ok (write_tmp (bs "/" ++ tag ++ bs " BMC" ++ nl) p)
  | KEndMark => Ok (write_tmp (bs "EMC" ++ nl) p)
  end.
Fixpoint run (p : painter) (l : list call) : res painter := match l with [] => Ok p | k :: r => do p <- step p k; run p r end.
