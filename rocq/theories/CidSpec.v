(** What the objects of a CID font mean, after ISO 32000-1, 9.7.4. *)
From Coq Require Import List ZArith.
From Verif Require Import Base TokModel.
Local Open Scope Z_scope.

(** Table 117, CIDToGIDMap: the glyph of the CID c is in the bytes 2c and 2c + 1, the first byte is the high one *)
Definition stored (bytes : list Z) (cid gid : Z) : Prop :=
  exists before a b after, bytes = before ++ a :: b :: after /\ Z.of_nat (length before) = 2 * cid /\ gid = 256 * a + b.

(** 9.7.4.3: /W has entries of two forms, the widths of consecutive CIDs and one width for a range of CIDs *)
Inductive entry := Each (first : Z) (ws : list obj) | Same (first last : Z) (w : obj).
Definition is_number (o : obj) : Prop := match o with ONum _ | OReal _ _ => True | _ => False end.
(** The objects of an entry; an array may be an indirect object *)
Inductive spelled (find : Z -> Z -> res obj) : entry -> list obj -> Prop :=
| S_each c ws : spelled find (Each c ws) [ONum c; OArr ws]
| S_ref c ws n g : find n g = Ok (OArr ws) -> spelled find (Each c ws) [ONum c; ORef n g]
| S_same a b w : spelled find (Same a b w) [ONum a; ONum b; w].
Definition gives (e : entry) (cid : Z) (w : obj) : Prop :=
  match e with
  | Each c ws => c <= cid /\ nth_error ws (Z.to_nat (cid - c)) = Some w
  | Same a b v => a <= cid <= b /\ v = w
  end.
(** The numbers of the CIDs fit into 32 bits, and so does the number of widths *)
Definition entry_fits (e : entry) : Prop :=
  match e with
  | Each c ws => 0 <= c /\ c + Z.of_nat (length ws) < 2 ^ 32 /\ Forall is_number ws
  | Same a b w => 0 <= a /\ a <= b /\ b + 1 < 2 ^ 32 /\ is_number w
  end.
(** The width of a CID: from the last entry which has it, or else the default *)
Definition says (es : list entry) (d : obj) (cid : Z) (w : obj) : Prop :=
  (exists before e after, es = before ++ e :: after /\ gives e cid w /\ forall x v, In x after -> ~ gives x cid v)
  \/ ((forall x v, In x es -> ~ gives x cid v) /\ w = d).

(** Table 124, CIDSet: one bit for each CID, the high bit of a byte is the first *)
Definition has_bit (s : list Z) (cid : Z) : bool := Z.testbit (nth (Z.to_nat (cid / 8)) s 0) (7 - cid mod 8).
