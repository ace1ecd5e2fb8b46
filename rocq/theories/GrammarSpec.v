(** The texts of objects a reader has to understand, ISO 32000-1, 7.2 and 7.3, comments included: [spelled P t o] says that the
    text [t] stands for the object [o]. It is the grammar of the standard, less what C110 shows the reader to get wrong (plus
    signs, some literal strings, a comment right after an empty name) and within the reader's limits (length of a token, range of
    numbers). *)
From Coq Require Import String Permutation.
From Verif Require Import Base TokModel DictProofs LitSpec TokProofs ConformSpec.
Local Open Scope Z_scope.

(** characters that are neither white space nor delimiters *)
Definition plain (c : Z) : Prop := ~ white c /\ ~ special c.

(** 7.2.2, 7.2.3: white space and comments; a comment ends with its line *)
Inductive blank : list Z -> Prop :=
| blank_nil : blank []
| blank_white c w : white c -> blank w -> blank (c :: w)
| blank_comment b e w : ~ In 10 b -> ~ In 13 b -> e = 10 \/ e = 13 -> blank w -> blank (37 :: b ++ e :: w).

(** 7.3.5: characters of a name stand for themselves or are given by two hexadecimal digits *)
Inductive name_spelled : list Z -> list Z -> Prop :=
| name_end : name_spelled [] []
| name_char c t n : plain c -> c <> 35 -> name_spelled t n -> name_spelled (c :: t) (c :: n)
| name_code a b h l t n : hexval a h -> hexval b l -> name_spelled t n -> name_spelled (35 :: a :: b :: t) (16 * h + l :: n).

(** 7.3.4.3: hexadecimal digits with white space anywhere between them *)
Inductive hex_spelled : list Z -> list Z -> Prop :=
| hexes_nil : hex_spelled [] []
| hexes_white c t ds : white c -> hex_spelled t ds -> hex_spelled (c :: t) ds
| hexes_digit c v t ds : hexval c v -> hex_spelled t ds -> hex_spelled (c :: t) (c :: ds).

(** the text goes on if a regular character follows *)
Definition open_ended (t : list Z) : Prop := t = [47] \/ exists x c, t = x ++ [c] /\ plain c.
(** [k] does not run into [t] *)
Definition separate (t k : list Z) : Prop :=
  match k with
  | [] => True
  | d :: _ => (open_ended t -> ~ plain d) /\ (t = [47] -> d <> 37)
  end.

Definition minus (s : list Z) (f : Z) : Prop := s = [] /\ f = 1 \/ s = [45] /\ f = -1.

Inductive spelled (P : rparams) : list Z -> obj -> Prop :=
| sp_null : spelled P (bs "null") ONull
| sp_true : spelled P (bs "true") (OBool true)
| sp_false : spelled P (bs "false") (OBool false)
| sp_int s f ds : minus s f -> ds <> [] -> Forall digit ds -> - 2 ^ 63 <= f * numeral ds < 2 ^ 63 -> (length (s ++ ds) <= rbuf P)%nat ->
    spelled P (s ++ ds) (ONum (f * numeral ds))
| sp_real s f ds fs : minus s f -> ds ++ fs <> [] -> Forall digit ds -> Forall digit fs -> (length (s ++ ds ++ [46%Z] ++ fs) <= rbuf P)%nat ->
    spelled P (s ++ ds ++ [46] ++ fs) (OReal (f * numeral (ds ++ fs)) (length fs))
| sp_name t n : name_spelled t n -> (length t <= rbuf P)%nat -> spelled P (47 :: t) (OName n)
| sp_lit l : literal l -> Forall supported l -> chained supported_follow l -> spelled P (40 :: text l ++ [41]) (OStr false (value l))
| sp_hex t ds s : hex_spelled t ds -> hex_text ds s -> spelled P (60 :: t ++ [62]) (OStr true s)
| sp_ref a b w v : rrefs P = true -> a <> [] -> Forall digit a -> b <> [] -> Forall digit b -> w <> [] -> blank w -> v <> [] -> blank v ->
    numeral a < 2 ^ 32 -> numeral b < 2 ^ 16 -> (length a <= rbuf P)%nat -> (length b <= rbuf P)%nat ->
    spelled P (a ++ w ++ b ++ v ++ [82]) (ORef (numeral a) (numeral b))
| sp_arr t l : row P t l -> spelled P (91 :: t ++ [93]) (OArr l)
(** keys are given once, in any order; an object of the model lists them in the order of the map *)
| sp_dict t e d : row P t (flat_map (fun x => [OName (fst x); snd x]) e) -> NoDup (map fst e) -> Permutation e d -> sorted d ->
    spelled P (60 :: 60 :: t ++ [62; 62]) (ODict d)
with row (P : rparams) : list Z -> list obj -> Prop :=
| row_nil w : blank w -> row P w []
| row_cons w t o r l : blank w -> spelled P t o -> separate t r -> row P r l -> row P (w ++ t ++ r) (o :: l).

(** What may follow an object's text: nothing that runs into it, and after an integer no "generation R". A lone angle bracket at
    the end of the data after an empty name is left out. *)
Definition can_follow (P : rparams) (t : list Z) (o : obj) (k : list Z) : Prop :=
  separate t k /\ (t = [47] -> k <> [60] /\ k <> [62]) /\
  match o with ONum _ => rrefs P = true -> num_safe (rbuf P) k | _ => True end.

(** [skips k r]: [r] is [k] without some blanks in front *)
Inductive skips : list Z -> list Z -> Prop :=
| skips_none k : skips k k
| skips_blank w k r : blank w -> skips k r -> skips (w ++ k) r
| skips_last b : ~ In 10 b -> ~ In 13 b -> skips (37 :: b) [].
(** the reader's state stands for the text, up to blanks in front of it *)
Definition left (P : rparams) (s : tst) (k : list Z) : Prop := exists k0 r, reads (rbuf P) s k0 /\ skips k0 r /\ skips k r.
