(** Signed files: vocabulary *)
From Coq Require Import String.
From Verif Require Import Base TokModel WriteModel DictProofs ObjSpec ListModel XrefModel ConformSpec GrammarSpec UpdateModel UpdateSpec.
Local Open Scope Z_scope.
Local Notation dict := (list (list Z * obj)) (only parsing).

(** ISO 32000-1, 12.8.1: /ByteRange is an array of pairs, the start and the number of the bytes that are signed *)
Fixpoint range_bytes (file : list Z) (l : list obj) : option (list Z) :=
  match l with
  | [] => Some []
  | ONum a :: ONum n :: t =>
    if (0 <=? a) && (0 <=? n) && (a + n <=? Z.of_nat (length file)) then
      match range_bytes file t with
      | Some r => Some (firstn (Z.to_nat n) (skipn (Z.to_nat a) file) ++ r)
      | None => None
      end
    else None
  | _ => None
  end.

(** 7.3.10: the object stands in the file at an offset, in any spelling *)
Definition stands_at (file : list Z) (off : Z) (r : ref) (o : obj) : Prop :=
  exists w t b k, skipn (Z.to_nat off) file = dec (fst r) ++ [32] ++ dec (snd r) ++ bs " obj" ++ w ++ t ++ b ++ bs "endobj" ++ k /\
    spelled default_params t o /\ (S (inner o) <= 256)%nat /\ blank w /\ separate (bs "obj") (w ++ t) /\ blank b /\ b <> [] /\
    (t = [47] -> forall y, b <> 37 :: y) /\ (exists c k', k = c :: k' /\ white c) /\
    0 <= off <= Z.of_nat (length file) /\ 0 <= fst r < 2 ^ 32 /\ 0 <= snd r < 2 ^ 16.

(** The entries of the signature dictionary apart from /Contents and /ByteRange *)
Definition plain_entries (filter sub type : list Z) (d : dict) : dict :=
  dict_add (bs "Type") (OName type) (dict_add (bs "SubFilter") (OName sub) (dict_add (bs "Filter") (OName filter) d)).
(** The signature dictionary of the signed document *)
Definition signed_dict (e : dict) (range : list obj) (contents : list Z) : dict :=
  dict_add (bs "ByteRange") (OArr range) (dict_add (bs "Contents") (OStr true contents) e).
(** What is needed of the objects: as for a save, with the signature among them *)
Definition signable (before : list wobj) (r : ref) (e : dict) (after : list wobj) (frees : list ref) : Prop :=
  saveable (before ++ (r, ODict e, true) :: after) frees.
