(** The text of objects as ISO 32000-1, 7.2 and 7.3 defines it (without comments): which texts stand for which objects. *)
From Coq Require Import String Permutation.
From Verif Require Import Base TokModel DictProofs LitSpec.
Local Open Scope Z_scope.

Definition white (c : Z) : Prop := In c [0; 9; 10; 12; 13; 32].
Definition special (c : Z) : Prop := In c [40; 41; 60; 62; 91; 93; 123; 125; 47; 37].
Definition regular (c : Z) : Prop := is_byte c /\ ~ white c /\ ~ special c.
(** two texts that do not run into each other; an empty name, a solidus alone, goes on with a regular character *)
Definition apart (a b : list Z) : Prop := forall c d x y, a = x ++ [c] -> b = d :: y -> ~ ((regular c \/ a = [47]) /\ regular d).

Definition digit (c : Z) : Prop := 48 <= c <= 57.
Definition numeral (ds : list Z) : Z := fold_left (fun v d => 10 * v + (d - 48)) ds 0.
Definition sign (s : list Z) (f : Z) : Prop := (s = [] \/ s = [43]) /\ f = 1 \/ s = [45] /\ f = -1.
Definition hexval (c v : Z) : Prop := (48 <= c <= 57 /\ v = c - 48) \/ (65 <= c <= 70 /\ v = c - 55) \/ (97 <= c <= 102 /\ v = c - 87).

(** 7.3.5: a character of a name stands for itself or is written as a number sign and two hexadecimal digits *)
Inductive name_text : list Z -> list Z -> Prop :=
| name_nil : name_text [] []
| name_self c t n : regular c -> 33 <= c <= 126 -> c <> 35 -> name_text t n -> name_text (c :: t) (c :: n)
| name_hex a b h l t n : hexval a h -> hexval b l -> 16 * h + l <> 0 -> name_text t n -> name_text (35 :: a :: b :: t) (16 * h + l :: n).
(** 7.3.4.3: pairs of digits, a missing last digit is 0 (white space between digits is left out here) *)
Inductive hex_text : list Z -> list Z -> Prop :=
| hex_nil : hex_text [] []
| hex_last a h : hexval a h -> hex_text [a] [16 * h]
| hex_pair a b h l t s : hexval a h -> hexval b l -> hex_text t s -> hex_text (a :: b :: t) (16 * h + l :: s).

Inductive text_of : list Z -> obj -> Prop :=
| text_null : text_of (bs "null") ONull
| text_true : text_of (bs "true") (OBool true)
| text_false : text_of (bs "false") (OBool false)
| text_int s f ds : sign s f -> ds <> [] -> Forall digit ds -> text_of (s ++ ds) (ONum (f * numeral ds))
(** an integer may be used for a real; [m / 10^k] is the value *)
| text_real s f ds fs m k : sign s f -> ds ++ fs <> [] -> Forall digit ds -> Forall digit fs ->
    m * 10 ^ Z.of_nat (length fs) = f * numeral (ds ++ fs) * 10 ^ Z.of_nat k -> text_of (s ++ ds ++ [46] ++ fs) (OReal m k)
| text_whole s f ds m k : sign s f -> ds <> [] -> Forall digit ds -> m = f * numeral ds * 10 ^ Z.of_nat k -> text_of (s ++ ds) (OReal m k)
| text_name t n : name_text t n -> text_of (47 :: t) (OName n)
| text_lit l : literal l -> text_of (40 :: text l ++ [41]) (OStr false (value l))
| text_hex t s : hex_text t s -> text_of (60 :: t ++ [62]) (OStr true s)
| text_ref a b w v : a <> [] -> Forall digit a -> b <> [] -> Forall digit b -> w <> [] -> Forall white w -> v <> [] -> Forall white v ->
    text_of (a ++ w ++ b ++ v ++ [82]) (ORef (numeral a) (numeral b))
| text_arr t l : seq_of t l -> text_of (91 :: t ++ [93]) (OArr l)
| text_dict t e d : seq_of t (flat_map (fun x => [OName (fst x); snd x]) e) -> NoDup (map fst e) -> Permutation e d ->
    text_of (60 :: 60 :: t ++ [62; 62]) (ODict d)
with seq_of : list Z -> list obj -> Prop :=
| seq_nil w : Forall white w -> seq_of w []
| seq_cons w t o r l : Forall white w -> text_of t o -> seq_of r l -> apart t r -> seq_of (w ++ t ++ r) (o :: l).

(** Objects that have a text: bytes are bytes, numbers of references are not negative, reals have at most six decimals,
    dictionaries are in the order of the map *)
Fixpoint expressible (o : obj) : Prop :=
  match o with
  | ONull | OBool _ | ONum _ => True
  | OReal _ k => (k <= 6)%nat
  | OName n => bytes_ok n
  | OStr _ s => bytes_ok s
  | ORef n g => 0 <= n /\ 0 <= g
  | OArr l => (fix all l := match l with [] => True | x :: r => expressible x /\ all r end) l
  | ODict d => sorted d /\ (fix all d := match d with [] => True | (k, v) :: r => (bytes_ok k /\ expressible v) /\ all r end) d
  end.
