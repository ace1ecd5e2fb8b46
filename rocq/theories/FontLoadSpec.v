(** What is asked of fonts that are made of dictionaries, after ISO 32000-1 9.6 and 9.8 *)
From Coq Require Import String QArith.
From Verif Require Import Base TokModel OwnModel FontLoadModel.
Local Open Scope Z_scope.
Local Notation dict := (list (list Z * obj)) (only parsing).

(** The value of a key, also behind a reference; there is none *)
Inductive entry (look : Z * Z -> option obj) (k : list Z) (d : dict) (o : obj) : Prop :=
| Direct : get_key k d = Some o -> (forall n g, o <> ORef n g) -> entry look k d o
| Behind n g : get_key k d = Some (ORef n g) -> look (n, g) = Some o -> entry look k d o.
Definition without (look : Z * Z -> option obj) (k : list Z) (d : dict) : Prop := forall o, ~ entry look k d o.
(** A number *)
Inductive num : obj -> Q -> Prop :=
| NumInt n : num (ONum n) (inject_Z n)
| NumReal m k : num (OReal m k) (Qmake m (Z.to_pos (10 ^ Z.of_nat k))).
(** 9.2.4: a unit of glyph space; a thousandth, or what the font matrix of a Type 3 font says *)
Inductive glyph_unit (look : Z * Z -> option obj) (sub : list Z) (font : dict) : Q -> Prop :=
| UnitSimple : sub <> bs "Type3" -> glyph_unit look sub font (1 # 1000)
| UnitNone : sub = bs "Type3" -> without look (bs "FontMatrix") font -> glyph_unit look sub font (1 # 1000)
| UnitMatrix x r q : sub = bs "Type3" -> entry look (bs "FontMatrix") font (OArr (x :: r)) -> num x q -> glyph_unit look sub font q.
(** The encodings that the library knows by name *)
Inductive named : list Z -> emap -> Prop :=
| NWin : named (bs "WinAnsiEncoding") MWin
| NMac : named (bs "MacRomanEncoding") MMac
| NExpert : named (bs "MacExpertEncoding") MExpert
| NIdH : named (bs "Identity-H") MIdH
| NIdV : named (bs "Identity-V") MIdV.
(** A font dictionary whose descriptor, if any, has no string as its stretch, and which has one if it needs one *)
Definition described (look : Z * Z -> option obj) (f : dict) : Prop :=
  (forall d h s, entry look (bs "FontDescriptor") f (ODict d) -> ~ entry look (bs "FontStretch") d (OStr h s)) /\
  (entry look (bs "Subtype") f (OName (bs "TrueType")) -> exists o, entry look (bs "FontDescriptor") f o).
(** The first descendant is there, and if it is no CID font it has a descriptor *)
Definition descended (look : Z * Z -> option obj) (f : dict) : Prop :=
  forall x r, entry look (bs "DescendantFonts") f (OArr (x :: r)) ->
    exists o, ((x = o /\ forall n g, x <> ORef n g) \/ exists n g, x = ORef n g /\ look (n, g) = Some o) /\
      forall c, o = ODict c -> described look c /\ (entry look (bs "Subtype") c (OName (bs "Type1")) -> exists o, entry look (bs "FontDescriptor") c o).
(** The encodings are names or streams *)
Definition no_differences (e : env) (f : dict) : Prop :=
  forall k d, k = bs "Encoding" \/ k = bs "ToUnicode" -> entry (look e) k f (ODict d) -> exists n g, get_key k f = Some (ORef n g) /\ streamed e (n, g) = true.
