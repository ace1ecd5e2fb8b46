(** Literal strings as ISO 32000-1, 7.3.4.2 defines them: a sequence of pieces. *)
From Coq Require Import String.
From Verif Require Import Base.
Local Open Scope Z_scope.

Inductive piece :=
| Plain (c : Z)            (* an ordinary character *)
| Open | Close             (* parentheses, balanced *)
| Named (c b : Z)          (* backslash and a letter of table 3, standing for [b] *)
| Octal (ds : list Z)      (* backslash and one to three octal digits (their values) *)
| Continued (e : list Z)   (* backslash and end of line: nothing *)
| Other (c : Z)            (* backslash and any other character: the backslash is ignored *)
| Eol (e : list Z).        (* an end of line: a line feed *)
Definition eols : list (list Z) := [[10]; [13]; [13; 10]].
Definition names : list (Z * Z) := [(110, 10); (114, 13); (116, 9); (98, 8); (102, 12); (40, 40); (41, 41); (92, 92)].
Definition piece_ok (p : piece) : Prop :=
  match p with
  | Plain c => ~ In c [40; 41; 92; 10; 13]
  | Open | Close => True
  | Named c b => In (c, b) names
  | Octal ds => (1 <= length ds <= 3)%nat /\ Forall (fun d => 0 <= d <= 7) ds
  | Continued e | Eol e => In e eols
  | Other c => ~ In c (map fst names) /\ ~ (48 <= c <= 55) /\ c <> 10 /\ c <> 13
  end.
Definition piece_text (p : piece) : list Z :=
  match p with
  | Plain c => [c] | Open => [40] | Close => [41] | Named c _ => [92; c]
  | Octal ds => 92 :: map (fun d => 48 + d) ds
  | Continued e => 92 :: e | Other c => [92; c] | Eol e => e
  end.
(** of an octal number only the low eight bits count *)
Definition piece_value (p : piece) : list Z :=
  match p with
  | Plain c => [c] | Open => [40] | Close => [41] | Named _ b => [b]
  | Octal ds => [fold_left (fun v d => 8 * v + d) ds 0 mod 256]
  | Continued _ => [] | Other c => [c] | Eol _ => [10]
  end.
(** the pieces are recognisable in the text: digits and line feeds are not taken for those of the piece before *)
Definition may_follow (p q : piece) : Prop :=
  match p, q with
  | Octal ds, Plain c => (length ds < 3)%nat -> ~ (48 <= c <= 55)
  | (Eol [13] | Continued [13]), Eol (10 :: _) => False
  | _, _ => True
  end.
Fixpoint chained (R : piece -> piece -> Prop) (l : list piece) : Prop :=
  match l with
  | p :: ((q :: _) as t) => R p q /\ chained R t
  | _ => True
  end.
(** every closing parenthesis has an opening one before it and the other way round; [d] are open *)
Fixpoint balanced (d : nat) (l : list piece) : Prop :=
  match l with
  | [] => d = O
  | Open :: t => balanced (S d) t
  | Close :: t => match d with O => False | S d' => balanced d' t end
  | _ :: t => balanced d t
  end.
Definition literal (l : list piece) : Prop := Forall piece_ok l /\ chained may_follow l /\ balanced 0 l.
Definition text (l : list piece) : list Z := concat (map piece_text l).
Definition value (l : list piece) : list Z := concat (map piece_value l).

(** The pieces for which the reader is right *)
Definition supported (p : piece) : Prop :=
  match p with Other _ => False | Eol e => e = [10] | Continued e => e <> [13; 10] | _ => True end.
Definition supported_follow (p q : piece) : Prop :=
  match p, q with
  | Octal ds, (Open | Close) => length ds = 3%nat
  | _, _ => True
  end.
