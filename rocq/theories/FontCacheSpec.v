(** What is asked of the fonts of a document *)
From Coq Require Import String.
From Verif Require Import Base FontCacheModel.
Local Open Scope Z_scope.

(** A table of hashes that finds keys equal to themselves, and one that never takes one standard font for another *)
Definition finds (e : env) : Prop := forall d, near e d d = true.
Definition separates (e : env) : Prop := forall a b, near e a b = true -> ds_std a = ds_std b.
(** Subset tags, ISO 32000-1 9.6.4: six capital letters and a plus sign; their number with the first letter counting least *)
Definition letters (l : list Z) : Prop := Forall (fun c => 65 <= c <= 90) l.
Definition tag (p : list Z) : Prop := exists l, p = l ++ bs "+" /\ length l = 6%nat /\ letters l.
Fixpoint number (l : list Z) : Z := match l with [] => 0 | c :: t => (c - 65) + 26 * number t end.
(** The tags that a history of calls gives out *)
Fixpoint given (e : env) (qs : list query) (s : cache) : list (list Z) :=
  match qs with [] => [] | q :: t => (match q with QPrefix => [fst (generate s)] | _ => [] end) ++ given e t (snd (ask e q s)) end.
(** Calls that ask for no exact name, and for faces of a known type *)
Definition plain (q : query) : Prop := match q with QFont _ p _ _ => sp_exact p = false | QFace m _ _ _ => mt_known m = true | _ => True end.
