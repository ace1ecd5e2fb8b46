(** What the sections of a CMap are (ISO 32000-1, 9.10.3; Adobe technical note 5014): written down for any white space and any spelling of
    the hexadecimal strings, with the mappings they stand for. *)
From Coq Require Import String.
From Verif Require Import Base TokModel WriteModel ObjSpec TextSpec CodeModel CodeSpec CMapModel.
Local Open Scope Z_scope.

Definition blank (ws : list Z) : Prop := Forall (fun c => is_ws c = true) ws.
(** <w>, where w may contain anything but > and does not begin with < *)
Definition hex_word (w : list Z) : Prop := ~ In 62 w /\ match w with c :: _ => c <> 60 | [] => True end.
(** White space and a word *)
Definition spaced : Type := (list Z * list Z)%type.
Definition spaced_ok (x : spaced) : Prop := blank (fst x) /\ hex_word (snd x).
Definition spaced_text (x : spaced) : list Z := fst x ++ 60 :: snd x ++ [62].
(** The code a word stands for: of one to four bytes *)
Definition word_code (x : spaced) : code := mk_code (number_of (hex_meaning (snd x))) (Z.of_nat (length (hex_meaning (snd x)))).
Definition is_code (x : spaced) : Prop := spaced_ok x /\ (1 <= length (hex_meaning (snd x)) <= 4)%nat.
(** The text a word stands for, in UTF-16BE *)
Definition is_text (x : spaced) (cps : list Z) : Prop := spaced_ok x /\ scalars cps /\ hex_meaning (snd x) = utf16be_text cps.

(** The mappings of a range: the last code point grows with the code *)
Definition bump (p : list Z) (i : Z) : list Z := removelast p ++ [last p 0 + i].
Fixpoint upto (i : Z) (n : nat) : list Z := match n with O => [] | S k => i :: upto (i + 1) k end.
Definition range_pairs (lo hi : code) (p : list Z) : list (code * list Z) :=
  map (fun i => (mk_code (c_num lo + i) (c_size lo), bump p i)) (upto 0 (Z.to_nat (c_num hi - c_num lo + 1))).
Definition array_pairs (lo : code) (ps : list (list Z)) : list (code * list Z) :=
  map (fun x => (mk_code (c_num lo + fst x) (c_size lo), snd x)) (combine (upto 0 (length ps)) ps).

(** The destination of a range: a text, or the texts of its codes *)
Inductive dest := DOne (x : spaced) | DMany (b : list Z) (xs : list spaced) (e : list Z).
Definition dest_text (d : dest) : list Z :=
  match d with DOne x => spaced_text x | DMany b xs e => b ++ 91 :: flat_map spaced_text xs ++ e ++ [93] end.
Record range := mk_range { r_lo : spaced; r_hi : spaced; r_dest : dest }.
Definition range_text (r : range) : list Z := spaced_text (r_lo r) ++ spaced_text (r_hi r) ++ dest_text (r_dest r).
Definition range_codes (r : range) : Prop :=
  is_code (r_lo r) /\ is_code (r_hi r) /\ 0 <= c_num (word_code (r_hi r)) - c_num (word_code (r_lo r)) < 2 ^ 32 - 1.
(** The range [r] means the mappings [ps]. The code points of the range are code points *)
Definition range_means (r : range) (ps : list (code * list Z)) : Prop :=
  range_codes r /\
  match r_dest r with
  | DOne x => exists p, is_text x p /\ p <> [] /\ last p 0 + (c_num (word_code (r_hi r)) - c_num (word_code (r_lo r))) <= 1114111 /\ ps = range_pairs (word_code (r_lo r)) (word_code (r_hi r)) p
  | DMany b xs e => blank b /\ blank e /\ exists texts, Forall2 is_text xs texts /\ Forall (fun p => p <> []) texts /\
                    Z.of_nat (length texts) = c_num (word_code (r_hi r)) - c_num (word_code (r_lo r)) + 1 /\ ps = array_pairs (word_code (r_lo r)) texts
  end.
(** The codes and texts of a bfchar section *)
Definition char_means (x : spaced * spaced) (q : code * list Z) : Prop := is_code (fst x) /\ is_text (snd x) (snd q) /\ snd q <> [] /\ fst q = word_code (fst x).
Definition char_text (x : spaced * spaced) : list Z := spaced_text (fst x) ++ spaced_text (snd x).

(** The sections after the code space: the count, the keyword, the entries *)
Inductive body := BChars (xs : list (spaced * spaced)) | BRanges (rs : list range).
Record part := mk_part { p_b1 : list Z; p_n : Z; p_b2 : list Z; p_body : body; p_b3 : list Z }.
Definition part_text (p : part) : list Z :=
  p_b1 p ++ dec (p_n p) ++ p_b2 p ++
  match p_body p with
  | BChars xs => bs "beginbfchar" ++ flat_map char_text xs ++ p_b3 p ++ bs "endbfchar"
  | BRanges rs => bs "beginbfrange" ++ flat_map range_text rs ++ p_b3 p ++ bs "endbfrange"
  end.
Definition white (b : list Z) : Prop := blank b /\ b <> [].
Definition part_means (means : range -> list (code * list Z) -> Prop) (p : part) (ps : list (code * list Z)) : Prop :=
  white (p_b1 p) /\ white (p_b2 p) /\ white (p_b3 p) /\ 0 <= p_n p < 2 ^ 63 /\
  match p_body p with
  | BChars xs => Forall2 char_means xs ps
  | BRanges rs => exists pss, Forall2 means rs pss /\ ps = concat pss
  end.

(** A CMap with the head and the foot that are written: the code space ranges, and the sections *)
Definition both_codes (x : spaced * spaced) : Prop := is_code (fst x) /\ is_code (snd x).
Definition cmap_text (cs : list (spaced * spaced)) (b : list Z) (parts : list part) : list Z :=
  unicode_head ++ flat_map char_text cs ++ b ++ bs "endcodespacerange" ++ flat_map part_text parts ++ cmap_foot.
(** The ranges whose destination is one code point *)
Definition one_point (r : range) : Prop := match r_dest r with DOne x => forall p, is_text x p -> length p = 1%nat | DMany _ _ _ => True end.
Definition part_one (p : part) : Prop := match p_body p with BChars _ => True | BRanges rs => Forall one_point rs end.
(** A code of one to four bytes, below 256^size *)
Definition code_ok (c : code) : Prop := 1 <= c_size c <= 4 /\ 0 <= c_num c < 256 ^ c_size c.
(** The codes in such a text *)
Definition codes_of (x : spaced * spaced) : list code := [word_code (fst x); word_code (snd x)].
Definition range_two (r : range) : list code := [word_code (r_lo r); word_code (r_hi r)].
Definition char_one (x : spaced * spaced) : list code := [word_code (fst x)].
Definition part_codes (p : part) : list code := match p_body p with BChars xs => flat_map char_one xs | BRanges rs => flat_map range_two rs end.
Definition text_codes (cs : list (spaced * spaced)) (parts : list part) : list code := flat_map codes_of cs ++ flat_map part_codes parts.
