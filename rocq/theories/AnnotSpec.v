(** What annotations and file specifications are, by the standard. *)
From Coq Require Import String QArith.
From Verif Require Import Base TokModel LinkSpec.
Local Open Scope Z_scope.

(** ** Annotations *)

(** The rectangle from (l, b) to (r, t) *)
Inductive rectangle : list obj -> Q -> Q -> Q -> Q -> Prop :=
| Rect4 a b c d l m r t : number_is a l -> number_is b m -> number_is c r -> number_is d t -> rectangle [a; b; c; d] l m r t.
(** 7.9.5: any two opposite corners give a rectangle; its lower and upper end in one direction *)
Definition ends (a b lo hi : Q) : Prop := ((lo == a /\ hi == b) \/ (lo == b /\ hi == a))%Q /\ (lo <= hi)%Q.
(** Table 164: the flags, 0 by default, belong to the annotation itself *)
Inductive flags_are (h : document) (d : list (list Z * obj)) : Z -> Prop :=
| FNone : absent d (bs "F") -> flags_are h d 0
| FSome z : entry_is h d (bs "F") (ONum z) -> 0 <= z < 2 ^ 32 -> flags_are h d z.
(** A text entry of the annotation itself *)
Inductive text_is (h : document) (d : list (list Z * obj)) (k : list Z) : option (list Z) -> Prop :=
| TNone : absent d k -> text_is h d k None
| TSome x s : entry_is h d k (OStr x s) -> text_is h d k (Some s).
(** All entries but those named *)
Definition only (ks : list (list Z)) (d d' : list (list Z * obj)) : Prop := forall k, ~ In k ks -> dict_get k d' = dict_get k d.
(** No other object of the document changes *)
Definition only_at (r : Z * Z) (h h' : document) : Prop := forall q, q <> r -> h' q = h q.

(** Table 168: the appearance of a kind, and of a state if there is one, is the form with reference [x] *)
Definition appearance (h : document) (r : Z * Z) (kind state : list Z) (x : Z * Z) : Prop :=
  exists d ad, h r = Some (ODict d) /\ entry_is h d (bs "AP") (ODict ad) /\
    (state = [] /\ dict_get kind ad = Some (ORef (fst x) (snd x)) \/
     state <> [] /\ exists sd, entry_is h ad kind (ODict sd) /\ dict_get state sd = Some (ORef (fst x) (snd x))).
(** The objects that the appearances of an annotation are kept in: itself, and those of its dictionaries that are indirect *)
Definition ref_in (o : option obj) : list (Z * Z) := match o with Some (ORef n g) => [(n, g)] | _ => [] end.
Definition deref (h : document) (o : option obj) : option obj := match o with Some (ORef n g) => h (n, g) | _ => o end.
Definition kept_in (h : document) (r : Z * Z) (d : list (list Z * obj)) : list (Z * Z) :=
  r :: ref_in (dict_get (bs "AP") d) ++
  match deref h (dict_get (bs "AP") d) with
  | Some (ODict ad) => ref_in (dict_get (bs "N") ad) ++ ref_in (dict_get (bs "R") ad) ++ ref_in (dict_get (bs "D") ad)
  | _ => []
  end.

(** ** File specifications *)

(** The last part of a path *)
Definition base_name (path b : list Z) : Prop := ~ In 47 b /\ exists dir, path = dir ++ b /\ (dir = [] \/ exists e, dir = e ++ [47]).
(** 7.11.2.1: the parts of a file specification string; a backslash makes the next byte part of a name *)
Inductive parts : list Z -> list (list Z) -> Prop :=
| PEnd : parts [] [[]]
| PSlash s l : parts s l -> parts (47 :: s) ([] :: l)
| PEsc c s n l : parts s (n :: l) -> parts (92 :: c :: s) ((c :: n) :: l)
| PByte c s n l : c <> 47 -> c <> 92 -> parts s (n :: l) -> parts (c :: s) ((c :: n) :: l).
(** The parts of a path *)
Inductive path_parts : list Z -> list (list Z) -> Prop :=
| QEnd : path_parts [] [[]]
| QSlash s l : path_parts s l -> path_parts (47 :: s) ([] :: l)
| QByte c s n l : c <> 47 -> path_parts s (n :: l) -> path_parts (c :: s) ((c :: n) :: l).
Definition plain (c : Z) : Prop := 97 <= c <= 122 \/ 65 <= c <= 90 \/ 48 <= c <= 57 \/ c = 95.
Definition separator (c : Z) : Prop := c = 47 \/ c = 58 \/ c = 92.
