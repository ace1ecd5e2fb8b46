(** What a save of a document's objects needs: vocabulary *)
From Coq Require Import String.
From Verif Require Import Base TokModel WriteModel DictProofs ObjSpec ListModel XrefModel XrefSpec ParserModel ParserSpec UpdateModel.
Local Open Scope Z_scope.
Local Notation dict := (list (list Z * obj)) (only parsing).

(** The numbers of the objects and of the free entries are different from each other, from 1 on and within the limits of the
    reader; the values are nested less deeply than the recursion guard allows and have the form of ObjSpec *)
Definition saveable (objs : list wobj) (frees : list ref) : Prop :=
  NoDup (map (fun x : wobj => fst (fst (fst x))) objs ++ map fst frees) /\
  (forall r o d, In (r, o, d) objs -> 1 <= fst r < 8388607 /\ 0 <= snd r < 2 ^ 16 /\ wf_obj default_params o /\ (S (inner o) <= 256)%nat) /\
  (forall r, In r frees -> 1 <= fst r < 8388607 /\ 0 <= snd r < 2 ^ 16).
(** The options: literals are set apart by spaces; "obj" is followed by a line end unless the layout is the compact one *)
Definition options_ok (fl : wflags) (tight : bool) : Prop := flags_ok fl /\ (tight = true -> wclean fl = false).
(** The numbers for which something is written: in an update, the modified objects and the free entries *)
Definition changed (inc : bool) (objs : list wobj) (frees : list ref) : list Z :=
  map (fun x : wobj => fst (fst (fst x))) (filter (fun x : wobj => negb inc || snd x) objs) ++ map fst frees.
(** The parts of a trailer: the catalogue and the information dictionary are indirect objects, the identifiers are strings *)
Definition trailer_parts (old : dict) (prev : Z) (id : list obj) : Prop :=
  (forall k v, In k [bs "Root"; bs "Info"] -> dict_get k old = Some v -> exists n g, v = ORef n g /\ 0 <= n < 2 ^ 32 /\ 0 <= g < 2 ^ 16) /\
  (forall v, In v id -> exists h s, v = OStr h s /\ bytes_ok s) /\ 0 <= prev < 2 ^ 63.
(** The text of an object is in the file at an offset *)
Definition written (file : list Z) (off : Z) (r : ref) (o : obj) : Prop :=
  exists fl tight text k, options_ok fl tight /\ obj_text fl tight r o = Ok text /\ skipn (Z.to_nat off) file = text ++ k /\
    0 <= off <= Z.of_nat (length file) /\ 0 <= fst r < 2 ^ 32 /\ 0 <= snd r < 2 ^ 16 /\ wf_obj default_params o /\ (S (inner o) <= 256)%nat.
(** An object of the file: its entry in the cross-reference sections, and what is loaded from there *)
Definition found (file : list Z) (es : rents) (r : ref) (o : obj) : Prop :=
  exists off, look es (fst r) = Some (RUsed off (snd r)) /\ load_object file off = Ok (r, o, false).

(** ** Histories: a document saved once and then updated any number of times *)
(** A save: incremental or not, the objects, the free entries *)
Definition edit : Type := bool * list wobj * list ref.
Definition edit_ok (e : edit) : Prop :=
  let '(inc, objs, frees) := e in saveable objs frees /\ (inc = true \/ objs <> [] \/ frees <> []) /\ (length (changed inc objs frees) < 511)%nat.
(** The files that come about, with the offset that a reader finds after startxref; the newest save comes first *)
Inductive history (v : list Z) : list Z -> Z -> list edit -> Prop :=
| H_save fl tight objs frees old id file off : options_ok fl tight -> edit_ok (false, objs, frees) -> trailer_parts old 0 id ->
    save fl tight false (header_text v) objs frees old 0 id = Ok file -> Z.of_nat (length file) < 10 ^ 10 ->
    has_end false file off -> history v file off [(false, objs, frees)]
| H_update fl tight objs frees old id file prev h file' off : history v file prev h -> options_ok fl tight -> edit_ok (true, objs, frees) ->
    trailer_parts old prev id -> save fl tight true file objs frees old prev id = Ok file' -> Z.of_nat (length file') < 10 ^ 10 ->
    has_end false file' off -> history v file' off ((true, objs, frees) :: h).
(** What the last save that concerns a number has done with it *)
Fixpoint last_object (h : list edit) (r : ref) (o : obj) : Prop :=
  match h with
  | [] => False
  | (inc, objs, frees) :: t =>
    (exists d, In (r, o, d) objs /\ (inc = false \/ d = true)) \/ (~ In (fst r) (changed inc objs frees) /\ last_object t r o)
  end.
Fixpoint last_free (h : list edit) (r : ref) : Prop :=
  match h with
  | [] => False
  | (inc, objs, frees) :: t => In r frees \/ (~ In (fst r) (changed inc objs frees) /\ last_free t r)
  end.
Fixpoint never (h : list edit) (n : Z) : Prop :=
  match h with
  | [] => True
  | (inc, objs, frees) :: t => ~ In n (changed inc objs frees) /\ never t n
  end.
