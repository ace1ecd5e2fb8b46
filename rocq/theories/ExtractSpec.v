(** What a content stream shows, by the standard (8.4, 9.3, 9.4): the strings with the places of their origins, and what words are. *)
From Coq Require Import String QArith Qabs.
From Verif Require Import Base TokModel RectModel ContentsModel ExtractModel.
Local Open Scope Z_scope.

(** ** Texts *)

(** White space in Unicode *)
Definition blank (c : Z) : Prop :=
  9 <= c <= 13 \/ c = 32 \/ c = 133 \/ c = 160 \/ c = 5760 \/ 8192 <= c <= 8202 \/ c = 8232 \/ c = 8233 \/ c = 8239 \/ c = 8287 \/ c = 12288.
(** The text without its white space *)
Inductive bare : list Z -> list Z -> Prop :=
| BNil : bare [] []
| BSkip c t u : blank c -> bare t u -> bare (c :: t) u
| BKeep c t u : ~ blank c -> bare t u -> bare (c :: t) (c :: u).
(** The words of a text *)
Inductive words : list Z -> list (list Z) -> Prop :=
| WNil : words [] []
| WSkip c t l : blank c -> words t l -> words (c :: t) l
| WWord w t l : w <> [] -> Forall (fun c => ~ blank c) w -> (t = [] \/ exists c r, t = c :: r /\ blank c) -> words t l -> words (w ++ t) (w :: l).
(** The text without the white space around it *)
Definition stripped (t u : list Z) : Prop :=
  exists a b, t = a ++ u ++ b /\ Forall blank a /\ Forall blank b /\
    (u = [] \/ (exists c r, u = c :: r /\ ~ blank c) /\ (exists r c, u = r ++ [c] /\ ~ blank c)).
(** Letters of either case are one *)
Definition same_letter (a b : Z) : Prop := a = b \/ 65 <= a <= 90 /\ b = a + 32 \/ 65 <= b <= 90 /\ a = b + 32.
Definition same_text (fold : bool) (a b : list Z) : Prop := if fold then Forall2 same_letter a b else a = b.
(** The text [p] begins at the place [n] of [t] *)
Definition occurs_at (fold : bool) (p t : list Z) (n : nat) : Prop := exists a b c, t = a ++ b ++ c /\ length a = n /\ same_text fold b p.
(** A place of [n] code points which is a whole word *)
Definition separates (c : Z) : Prop := blank c \/ 33 <= c <= 47 \/ 58 <= c <= 64 \/ 91 <= c <= 96 \/ 123 <= c <= 126.
Definition whole_at (fold : bool) (p t : list Z) (n : nat) : Prop := exists a b c, t = a ++ b ++ c /\ length a = n /\ same_text fold b p /\
  (forall r x, a = r ++ [x] -> separates x) /\ (forall x r, c = x :: r -> separates x).

(** ** Content streams *)

Inductive piece := PText (s : list Z) | PMove (q : Q).
Inductive oper :=
| Lead (q : Q) | Concat (m : matrix) | Move (x y : Q) | MoveLead (x y : Q) | SetTm (m : matrix) | NextLine | Begin | End
| Font (n : list Z) (size : Q) | Show (s : list Z) | NextShow (s : list Z) | SpaceShow (w c : Q) (s : list Z) | ShowList (l : list piece)
| CharSp (q : Q) | WordSp (q : Q) | Scale (q : Q) | Rise (q : Q) | Save | Restore | Other.
(** A form is painted with its resources, its matrix and its contents *)
Inductive item := Op (o : oper) | Form (f : Z) (m : matrix) (l : list item).

(** *** How they are spelled *)
Inductive number : obj -> Q -> Prop :=
| NInt z : number (ONum z) (inject_Z z)
| NReal m k : number (OReal m k) (inject_Z m / inject_Z (10 ^ Z.of_nat k)).
Inductive numbers : list obj -> matrix -> Prop :=
| Num6 oa ob oc od oe og a b c d e f : number oa a -> number ob b -> number oc c -> number od d -> number oe e -> number og f ->
    numbers [oa; ob; oc; od; oe; og] (mk_matrix a b c d e f).
Inductive piece_is : obj -> piece -> Prop :=
| PIText h s : piece_is (OStr h s) (PText s)
| PIMove o q : number o q -> piece_is o (PMove q).
(** The operands in their order, and the name of the operator *)
Inductive spelling : list obj -> list Z -> oper -> Prop :=
| SLead o q : number o q -> spelling [o] (bs "TL") (Lead q)
| SConcat l m : numbers l m -> spelling l (bs "cm") (Concat m)
| SMove a b x y : number a x -> number b y -> spelling [a; b] (bs "Td") (Move x y)
| SMoveLead a b x y : number a x -> number b y -> spelling [a; b] (bs "TD") (MoveLead x y)
| STm l m : numbers l m -> spelling l (bs "Tm") (SetTm m)
| SNextLine : spelling [] (bs "T*") NextLine
| SBegin : spelling [] (bs "BT") Begin
| SEnd : spelling [] (bs "ET") End
| SFont n o q : number o q -> spelling [OName n; o] (bs "Tf") (Font n q)
| SShow h s : spelling [OStr h s] (bs "Tj") (Show s)
| SNextShow h s : spelling [OStr h s] (bs "'") (NextShow s)
| SSpaceShow a b h s w c : number a w -> number b c -> spelling [a; b; OStr h s] [34] (SpaceShow w c s)
| SShowList l p : Forall2 piece_is l p -> spelling [OArr l] (bs "TJ") (ShowList p)
| SChar o q : number o q -> spelling [o] (bs "Tc") (CharSp q)
| SWord o q : number o q -> spelling [o] (bs "Tw") (WordSp q)
| SScale o q : number o q -> spelling [o] (bs "Tz") (Scale q)
| SRise o q : number o q -> spelling [o] (bs "Ts") (Rise q)
| SSave : spelling [] (bs "q") Save
| SRestore : spelling [] (bs "Q") Restore
| SOther l n : ~ In n [bs "TL"; bs "cm"; bs "Td"; bs "TD"; bs "Tm"; bs "T*"; bs "BT"; bs "ET"; bs "Tf"; bs "Tj"; bs "'"; [34]; bs "TJ"; bs "Tc";
    bs "Tw"; bs "Tz"; bs "Ts"; bs "q"; bs "Q"; bs "Do"; bs "gs"] -> spelling l n Other.
(** Operators that the reader gives, with as many operands as they need; the stack has its top first *)
Definition spells (c : content) (o : oper) : Prop :=
  ct_type c = COperator /\ Z.testbit (ct_warn c) 0 = false /\ exists l n, spelling l n o /\ ct_stack c = rev l /\ op_of_name n = Some (ct_op c).
Inductive spelled : list content -> list item -> Prop :=
| SpNil : spelled [] []
| SpOp c l o t : spells c o -> spelled l t -> spelled (c :: l) (Op o :: t)
| SpImage c l t : ct_type c = CImageDict \/ ct_type c = CImageData -> spelled l t -> spelled (c :: l) t
| SpForm c f m b body d l t : ct_type c = CDoXObject -> ct_xobj c = Some (f, XForm) -> spelled b body -> ct_type d = CEndForm -> spelled l t ->
    spelled (c :: b ++ d :: l) (Form f m body :: t).

(** *** What they show *)

(** 8.3.4: the product of two matrices *)
Definition product (m n : matrix) : matrix :=
  mk_matrix (ma m * ma n + mb m * mc n) (ma m * mb n + mb m * md n) (mc m * ma n + md m * mc n) (mc m * mb n + md m * md n)
            (me m * ma n + mf m * mc n + me n) (me m * mb n + mf m * md n + mf n).
Definition shift (x y : Q) : matrix := mk_matrix 1 0 0 1 x y.
(** 8.4.1, 9.3.1: the parameters of the graphics state that texts need *)
Record gstate := mk_gs { g_ctm : matrix; g_font : option font; g_size : Q; g_char : Q; g_word : Q; g_scale : Q; g_rise : Q; g_lead : Q }.
(** The saved states of the stream; in a text object the text matrix and the text line matrix *)
Record pstate := mk_ps { p_gs : gstate; p_saved : list gstate; p_text : option (matrix * matrix) }.
(** A string: the texts of its codes, the place of its origin, the place where it ends, and the width of a space of its font without
    spacing *)
Record shown := mk_shown { sh_codes : list (list Z); sh_x : Q; sh_y : Q; sh_ex : Q; sh_ey : Q; sh_wide : Q }.
Definition sh_text (s : shown) : list Z := concat (sh_codes s).

Section Machine.
(** The fonts in the resources of a canvas; which codes of a string are the one byte 32 *)
Variable fonts : Z -> list Z -> option font.
Variable spaces : font -> list Z -> list bool.
(** 9.4.4: the displacement of a string *)
Fixpoint displaced (g : gstate) (codes : list (list Z * Q)) (sp : list bool) : Q :=
  match codes with
  | [] => 0
  | (_, w) :: l => (w * g_size g + g_char g + (if match sp with b :: _ => b | [] => false end then g_word g else 0)) * g_scale g + displaced g l (List.tl sp)
  end%Q.
Definition show_string (g : gstate) (m : matrix) (s : list Z) : option (matrix * shown) :=
  match g_font g with
  | None => None
  | Some f =>
    let next := product (shift (displaced g (f_scan f s) (spaces f s)) 0) m in
    let from := product (shift 0 (g_rise g)) (product m (g_ctm g)) in
    let to := product (shift 0 (g_rise g)) (product next (g_ctm g)) in
    Some (next, mk_shown (map fst (f_scan f s)) (me from) (mf from) (me to) (mf to) (Qabs (f_space f * g_size g * g_scale g * ma (product m (g_ctm g)))))
  end.
Fixpoint show_pieces (g : gstate) (m : matrix) (l : list piece) : option (matrix * list shown) :=
  match l with
  | [] => Some (m, [])
  | PText s :: l =>
    match show_string g m s with
    | Some (m, x) => match show_pieces g m l with Some (m, r) => Some (m, x :: r) | None => None end
    | None => None
    end
  | PMove q :: l =>
    match g_font g with Some _ => show_pieces g (product (shift (- q / 1000 * g_size g * g_scale g) 0) m) l | None => None end
  end.
(** One operator in the canvas [cv]; None: not allowed here, or a font that there is not *)
Definition perform (cv : Z) (p : pstate) (o : oper) : option (pstate * list shown) :=
  let g := p_gs p in
  let with_g g := Some (mk_ps g (p_saved p) (p_text p), []) in
  let text k := match p_text p with Some (m, l) => k m l | None => None end in
  let line m := Some (mk_ps g (p_saved p) (Some (m, m)), []) in
  let next l := product (shift 0 (- g_lead g)) l in
  let shows g m l s := match show_string g m s with Some (m, x) => Some (mk_ps g (p_saved p) (Some (m, l)), [x]) | None => None end in
  match o with
  | Lead q => with_g (mk_gs (g_ctm g) (g_font g) (g_size g) (g_char g) (g_word g) (g_scale g) (g_rise g) q)
  | CharSp q => with_g (mk_gs (g_ctm g) (g_font g) (g_size g) q (g_word g) (g_scale g) (g_rise g) (g_lead g))
  | WordSp q => with_g (mk_gs (g_ctm g) (g_font g) (g_size g) (g_char g) q (g_scale g) (g_rise g) (g_lead g))
  | Scale q => with_g (mk_gs (g_ctm g) (g_font g) (g_size g) (g_char g) (g_word g) (q / 100) (g_rise g) (g_lead g))
  | Rise q => with_g (mk_gs (g_ctm g) (g_font g) (g_size g) (g_char g) (g_word g) (g_scale g) q (g_lead g))
  | Font n s =>
    match fonts cv n with
    | Some f => with_g (mk_gs (g_ctm g) (Some f) s (g_char g) (g_word g) (g_scale g) (g_rise g) (g_lead g))
    | None => None
    end
  | Begin => match p_text p with None => Some (mk_ps g (p_saved p) (Some (identity, identity)), []) | Some _ => None end
  | End => match p_text p with Some _ => Some (mk_ps g (p_saved p) None, []) | None => None end
  | Concat m => match p_text p with
                | None => with_g (mk_gs (product m (g_ctm g)) (g_font g) (g_size g) (g_char g) (g_word g) (g_scale g) (g_rise g) (g_lead g))
                | Some _ => None
                end
  | Save => match p_text p with None => Some (mk_ps g (g :: p_saved p) None, []) | Some _ => None end
  | Restore => match p_text p, p_saved p with None, h :: r => Some (mk_ps h r None, []) | _, _ => None end
  | Move x y => text (fun _ l => line (product (shift x y) l))
  | MoveLead x y => text (fun _ l => let m := product (shift x y) l in
      Some (mk_ps (mk_gs (g_ctm g) (g_font g) (g_size g) (g_char g) (g_word g) (g_scale g) (g_rise g) (- y)) (p_saved p) (Some (m, m)), []))
  | SetTm m => text (fun _ _ => line m)
  | NextLine => text (fun _ l => line (next l))
  | Show s => text (fun m l => shows g m l s)
  | NextShow s => text (fun _ l => shows g (next l) (next l) s)
  | SpaceShow w c s => text (fun _ l => shows (mk_gs (g_ctm g) (g_font g) (g_size g) c w (g_scale g) (g_rise g) (g_lead g)) (next l) (next l) s)
  | ShowList q => text (fun m l => match show_pieces g m q with Some (m, x) => Some (mk_ps g (p_saved p) (Some (m, l)), x) | None => None end)
  | Other => Some (p, [])
  end.
Fixpoint paint (cv : Z) (p : pstate) (t : item) : option (pstate * list shown) :=
  match t with
  | Op o => perform cv p o
  | Form f m l =>
    match p_text p with
    | Some _ => None
    | None =>
      let g := p_gs p in
      let inner := mk_ps (mk_gs (product m (g_ctm g)) (g_font g) (g_size g) (g_char g) (g_word g) (g_scale g) (g_rise g) (g_lead g)) [] None in
      let go := fix go (p : pstate) (l : list item) : option (list shown) :=
        match l with
        | [] => Some []
        | t :: l => match paint f p t with
                    | Some (p, a) => match go p l with Some b => Some (a ++ b) | None => None end
                    | None => None
                    end
        end in
      match go inner l with Some a => Some (p, a) | None => None end
    end
  end.
Fixpoint paint_all (cv : Z) (p : pstate) (l : list item) : option (list shown) :=
  match l with
  | [] => Some []
  | t :: l => match paint cv p t with
              | Some (p, a) => match paint_all cv p l with Some b => Some (a ++ b) | None => None end
              | None => None
              end
  end.
(** A page begins with its default state *)
Definition page_start : pstate := mk_ps (mk_gs identity None 0 0 0 1 0 0) [] None.
Definition page_shows (page : Z) (l : list item) : option (list shown) := paint_all page page_start l.
End Machine.

(** *** Contents of which the places are kept: no rise, scaling, spacing of words, lines before strings, slanted or turned text or forms with
    a matrix *)
Definition plain_oper (o : oper) : Prop :=
  match o with
  | SetTm m => (mb m == 0 /\ mc m == 0)%Q
  | WordSp q | Rise q => (q == 0)%Q
  | Scale q => (q == 100)%Q
  | NextShow _ | SpaceShow _ _ _ => False
  | _ => True
  end.
Inductive plain_item : item -> Prop :=
| PlOp o : plain_oper o -> plain_item (Op o)
| PlForm f m l : (ma m == 1 /\ mb m == 0 /\ mc m == 0 /\ md m == 1 /\ me m == 0 /\ mf m == 0)%Q -> Forall plain_item l -> plain_item (Form f m l).
(** Of which the widths of spaces are kept: no spacing of characters and no scaling of the page *)
Definition even_oper (o : oper) : Prop :=
  match o with
  | CharSp q => (q == 0)%Q
  | Concat m => (ma m == 1 /\ mb m == 0 /\ mc m == 0)%Q
  | _ => True
  end.
Inductive even_item : item -> Prop :=
| EvOp o : even_oper o -> even_item (Op o)
| EvForm f m l : Forall even_item l -> even_item (Form f m l).

(** *** How strings make lines of text *)
Inductive sep := Tight | Space | Apart.
(** Not on one line: the base lines are a hundredth of a unit apart. On one base line the gap between the strings says what is between them:
    nothing if it is less than a space, a space up to six spaces, and more if it is larger. There is no space beside white space.
    [even]: whether the gaps are kept; [wordwise]: each space is large *)
Definition one_line (a b : shown) : Prop := (- (1 # 100) < sh_y b - sh_y a < 1 # 100)%Q.
Definition gap (a b : shown) : Q := (Qabs (sh_x b - sh_ex a) + (1 # 10000000))%Q.
Definition measured (even : bool) (a b : shown) : Prop := even = true /\ (sh_y b == sh_ey a /\ 0 < sh_wide b)%Q.
Definition white_between (a b : shown) : Prop := (exists t c, sh_text a = t ++ [c] /\ blank c) \/ Exists blank (sh_text b).
Definition sep_ok (even wordwise : bool) (a b : shown) (s : sep) : Prop :=
  match s with
  | Tight => one_line a b /\ (measured even a b -> (gap a b < sh_wide b)%Q \/ wordwise = false /\ white_between a b /\ (gap a b <= 6 * sh_wide b)%Q)
  | Space => wordwise = false /\ one_line a b /\ ~ white_between a b /\ (measured even a b -> (sh_wide b <= gap a b <= 6 * sh_wide b)%Q)
  | Apart => one_line a b -> measured even a b -> if wordwise then (sh_wide b <= gap a b)%Q else (6 * sh_wide b < gap a b)%Q
  end.
(** The lines with their first strings *)
Inductive laid (even wordwise : bool) : list shown -> list (shown * list Z) -> Prop :=
| LNil : laid even wordwise [] []
| LOne a : laid even wordwise [a] [(a, sh_text a)]
| LTight a b l t r : sep_ok even wordwise a b Tight -> laid even wordwise (b :: l) ((b, t) :: r) -> laid even wordwise (a :: b :: l) ((a, sh_text a ++ t) :: r)
| LSpace a b l t r : sep_ok even wordwise a b Space -> laid even wordwise (b :: l) ((b, t) :: r) -> laid even wordwise (a :: b :: l) ((a, sh_text a ++ 32 :: t) :: r)
| LApart a b l t r : sep_ok even wordwise a b Apart -> laid even wordwise (b :: l) ((b, t) :: r) -> laid even wordwise (a :: b :: l) ((a, sh_text a) :: (b, t) :: r).

(** The strings that have text; strings that have codes have text *)
Definition has_text (w : shown) : bool := match sh_text w with [] => false | _ => true end.
Definition textual (w : shown) : Prop := sh_codes w = [] \/ sh_text w <> [].
(** The fonts of the document *)
Definition fonts (e : env) (cv : Z) (n : list Z) : option font := match e_font e cv n with Some (Some f) => Some f | _ => None end.
(** Codes whose texts do not have both white space and other text *)
Definition one_kind (t : list Z) : Prop := Forall blank t \/ Forall (fun c => ~ blank c) t.

(** ** Entries *)

(** The place of an entry: that of the string, turned with the page unless the coordinates are raw *)
Definition turned (turn : option matrix) (x y : Q) : Q * Q :=
  match turn with Some m => (ma m * x + mc m * y + me m, mb m * x + md m * y + mf m)%Q | None => (x, y) end.
Definition stands (turn : option matrix) (x y : Q) (s : shown) : Prop :=
  (x == fst (turned turn (sh_x s) (sh_y s)) /\ y == snd (turned turn (sh_x s) (sh_y s)))%Q.
(** Some are taken and the others are left out *)
Inductive picked (taken : entry -> entry -> Prop) (left_out : entry -> Prop) : list entry -> list entry -> Prop :=
| PkNil : picked taken left_out [] []
| PkTake x y l r : taken x y -> picked taken left_out l r -> picked taken left_out (x :: l) (y :: r)
| PkLeave x l r : left_out x -> picked taken left_out l r -> picked taken left_out (x :: l) r.
(** What a search wants: no pattern, the pattern somewhere in the text, or the pattern as the text *)
Definition wanted (pattern : list Z) (fold whole : bool) (t : list Z) : Prop :=
  pattern = [] \/ if whole then same_text fold t pattern else exists n, occurs_at fold pattern t n.
Definition within (clip : option rect) (x y : Q) : Prop :=
  match clip with Some r => (rl r <= x <= rl r + rw r /\ rb r <= y <= rb r + rh r)%Q | None => True end.
