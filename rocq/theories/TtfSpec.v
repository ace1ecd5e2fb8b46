(** TrueType fonts as a reader of the OpenType specification sees them (otff, maxp, hhea, hmtx, loca, glyf), and what a subset is. *)
From Coq Require Import String.
From Verif Require Import Base.
Local Open Scope Z_scope.

(** ** Numbers and tables *)
Definition byte (b : list Z) (o : Z) : Z := nth (Z.to_nat o) b 0.
Definition at16 (b : list Z) (o : Z) : Z := byte b o * 256 + byte b (o + 1).
Definition at32 (b : list Z) (o : Z) : Z := at16 b o * 65536 + at16 b (o + 2).
Definition size (b : list Z) : Z := Z.of_nat (length b).
Definition slice (b : list Z) (o n : Z) : list Z := firstn (Z.to_nat n) (skipn (Z.to_nat o) b).
(** Entry [i] of the directory: its tag, checksum, offset and length *)
Record entry := mk_en { en_tag : Z; en_sum : Z; en_off : Z; en_len : Z }.
Definition entry_at (f : list Z) (i : nat) : entry :=
  let o := 12 + 16 * Z.of_nat i in mk_en (at32 f o) (at32 f (o + 4)) (at32 f (o + 8)) (at32 f (o + 12)).
Definition dir (f : list Z) : list entry := map (entry_at f) (seq 0 (Z.to_nat (at16 f 4))).
Fixpoint word (s : list Z) (v : Z) : Z := match s with [] => v | c :: r => word r (v * 256 + c) end.
Definition named (s : list Z) (e : entry) : bool := en_tag e =? word s 0.
Definition table (f : list Z) (s : list Z) : list Z := match find (named s) (dir f) with Some e => slice f (en_off e) (en_len e) | None => [] end.

(** ** Glyphs and metrics *)
Definition glyph_count (f : list Z) : Z := at16 (table f (bs "maxp")) 4.
Definition long_loca (f : list Z) : bool := negb (at16 (table f (bs "head")) 50 =? 0).
Definition loca (f : list Z) (i : Z) : Z := if long_loca f then at32 (table f (bs "loca")) (4 * i) else 2 * at16 (table f (bs "loca")) (2 * i).
Definition glyph (f : list Z) (i : Z) : list Z := slice (table f (bs "glyf")) (loca f i) (loca f (i + 1) - loca f i).
Definition hcount (f : list Z) : Z := at16 (table f (bs "hhea")) 34.
Definition advance (f : list Z) (i : Z) : Z := at16 (table f (bs "hmtx")) (4 * Z.min i (hcount f - 1)).
Definition bearing (f : list Z) (i : Z) : Z :=
  if i <? hcount f then at16 (table f (bs "hmtx")) (4 * i + 2) else at16 (table f (bs "hmtx")) (4 * hcount f + 2 * (i - hcount f)).
(** A glyph of other glyphs: the number of contours is negative. The components from [o] on: where the number of the glyph is, and the number *)
Definition compound (g : list Z) : bool := negb (size g =? 0) && (32768 <=? at16 g 0).
Definition flag (v bit : Z) : bool := negb (Z.land v bit =? 0).
Definition part_size (v : Z) : Z := 4 + (if flag v 1 then 4 else 2) + (if flag v 8 then 2 else if flag v 64 then 4 else if flag v 128 then 8 else 0).
Inductive parts (g : list Z) : Z -> list (Z * Z) -> Prop :=
| P_last o : o + 4 <= size g -> flag (at16 g o) 32 = false -> parts g o [(o + 2, at16 g (o + 2))]
| P_more o l : o + 4 <= size g -> flag (at16 g o) 32 = true -> parts g (o + part_size (at16 g o)) l -> parts g o ((o + 2, at16 g (o + 2)) :: l).

(** ** Valid fonts *)
Record valid (f : list Z) : Prop := {
  v_bytes : bytes_ok f;
  v_size : size f < 2 ^ 28;
  v_dir : 12 + 16 * at16 f 4 <= size f;
  v_once : NoDup (map en_tag (dir f));
  v_inside : forall e, In e (dir f) -> en_off e + en_len e <= size f;
  v_tables : forall s, In s [bs "head"; bs "hhea"; bs "loca"; bs "maxp"; bs "glyf"; bs "hmtx"] -> exists e, In e (dir f) /\ named s e = true;
  v_head : 54 <= size (table f (bs "head"));
  v_maxp : 6 <= size (table f (bs "maxp"));
  v_hhea : 36 <= size (table f (bs "hhea"));
  v_count : 1 <= hcount f <= glyph_count f;
  v_loca : (if long_loca f then 4 else 2) * (glyph_count f + 1) <= size (table f (bs "loca"));
  v_hmtx : 4 * hcount f + 2 * (glyph_count f - hcount f) <= size (table f (bs "hmtx"));
  v_order : forall i, 0 <= i < glyph_count f -> loca f i <= loca f (i + 1);
  v_glyf : loca f (glyph_count f) <= size (table f (bs "glyf"));
  v_glyph : forall i, 0 <= i < glyph_count f -> glyph f i = [] \/ 2 <= size (glyph f i);
  v_parts : forall i, 0 <= i < glyph_count f -> compound (glyph f i) = true -> exists l, parts (glyph f i) 10 l /\ Forall (fun p => snd p < glyph_count f) l }.
(** What follows the place of an empty glyph does not look like a glyph of other glyphs *)
Definition empty_ok (f : list Z) : Prop := forall e i, In e (dir f) -> named (bs "glyf") e = true -> 0 <= i < glyph_count f -> glyph f i = [] ->
  en_off e + loca f i + 2 <= size f /\ at16 f (en_off e + loca f i) < 32768.

(** ** Subsets *)
(** The glyphs that are needed to show [gids] *)
Inductive needed (f : list Z) (gids : list Z) : Z -> Prop :=
| N_zero : needed f gids 0
| N_listed g : In g gids -> needed f gids g
| N_part g l p c : needed f gids g -> compound (glyph f g) = true -> parts (glyph f g) 10 l -> In (p, c) l -> needed f gids c.
(** [b] is [a] with the components numbered anew: [ord] has the old numbers *)
Definition renumbered (ord : list Z) (a b : list Z) : Prop :=
  if compound a then
    size b = size a /\
    exists l l', parts a 10 l /\ parts b 10 l' /\ map fst l' = map fst l /\ Forall2 (fun p q => nth_error ord (Z.to_nat (snd q)) = Some (snd p)) l l' /\
      forall o, 0 <= o < size a -> (forall p c, In (p, c) l -> o <> p /\ o <> p + 1) -> byte b o = byte a o
  else b = a.
(** [out] shows the glyphs [ord] of [f] as its glyphs 0, 1, 2, ... *)
Record shows_glyphs (f : list Z) (ord : list Z) (out : list Z) : Prop := {
  s_count : glyph_count out = size ord;
  s_glyph : forall i g, nth_error ord i = Some g -> renumbered ord (glyph f g) (glyph out (Z.of_nat i));
  s_advance : forall i g, nth_error ord i = Some g -> advance out (Z.of_nat i) = advance f g;
  s_bearing : forall i g, nth_error ord i = Some g -> bearing out (Z.of_nat i) = bearing f g }.
(** Without the metrics *)
Definition shows_outlines (f : list Z) (ord : list Z) (out : list Z) : Prop :=
  glyph_count out = size ord /\ forall i g, nth_error ord i = Some g -> renumbered ord (glyph f g) (glyph out (Z.of_nat i)).
(** The glyphs with full metrics are first. Then the bearings are those of the font; the glyphs without full metrics are as wide as the last
    one with them *)
Definition full (f : list Z) (ord : list Z) : list Z := filter (fun g => g <? hcount f) ord.
Definition full_first (f : list Z) (ord : list Z) : Prop := ord = full f ord ++ filter (fun g => negb (g <? hcount f)) ord.
Definition shows_metrics (f : list Z) (ord : list Z) (out : list Z) : Prop :=
  forall i g, nth_error ord i = Some g -> bearing out (Z.of_nat i) = bearing f g /\
    advance out (Z.of_nat i) = advance f (if g <? hcount f then g else last (full f ord) 0).
(** The directory of [out] has the tables of [f] that PDF asks for, each aligned and inside the file; the programs are unchanged, and so is the
    head table but for four bytes from [at_] on *)
Definition wanted (f : list Z) (e : entry) : bool :=
  existsb (fun s => named s e) [bs "head"; bs "hhea"; bs "loca"; bs "maxp"; bs "glyf"; bs "hmtx"; bs "cvt "; bs "fpgm"; bs "prep"] ||
  (named (bs "post") e && (32 <=? en_len e)).
Record directory (at_ : Z) (f out : list Z) : Prop := {
  d_tags : map en_tag (dir out) = map en_tag (filter (wanted f) (dir f));
  d_inside : forall e, In e (dir out) -> en_off e mod 4 = 0 /\ en_off e + en_len e <= size out;
  d_same : forall s, In s [bs "cvt "; bs "fpgm"; bs "prep"] -> table out s = table f s;
  d_head : forall o, 0 <= o < size (table f (bs "head")) -> o < at_ \/ at_ + 4 <= o -> byte (table out (bs "head")) o = byte (table f (bs "head")) o }.
(** ** What the specification asks of the header and the checksums *)
Fixpoint words_sum (b : list Z) (n : nat) : Z := match n with O => 0 | S n => match b with [] => 0 | _ => at32 (b ++ [0; 0; 0]) 0 + words_sum (skipn 4 b) n end end.
Definition table_sum (b : list Z) : Z := words_sum b (S (length b)) mod 2 ^ 32.
Definition sums_ok (f : list Z) : Prop := forall e, In e (dir f) -> named (bs "head") e = false -> en_sum e = table_sum (slice f (en_off e) (en_len e)).
Definition search_ok (f : list Z) : Prop :=
  let n := at16 f 4 in let k := Z.log2 n in at16 f 6 = 16 * 2 ^ k /\ at16 f 8 = k /\ at16 f 10 = 16 * n - 16 * 2 ^ k.
