(** What the data of a stream is: vocabulary *)
From Coq Require Import String.
From Verif Require Import Base TokModel WriteModel DictProofs TokProofs ObjSpec FilterModel FilterSpec ListModel StreamModel.
Local Open Scope Z_scope.
Local Notation dict := (list (list Z * obj)) (only parsing).

(** Reading the stream to its end gives this data. *)
Definition reads_as (z : zlib) (look : Z * Z -> option obj) (s : sobj) (data : list Z) : Prop :=
  exists n0, forall n, (n0 <= n)%nat -> read_stream z look n false s = Ok data.
(** The filters with which data can be written *)
Definition encodable (t : ftype) : Prop := t = FHex \/ t = F85 \/ t = FFlate.
(** The value of an entry, looking through one reference *)
Definition entry (look : Z * Z -> option obj) (k : list Z) (d : dict) (v : obj) : Prop := exists o, In (k, o) d /\ says look o v.
(** What is left in /DecodeParms does not concern the filters: there is no entry, or no filter, or none that takes
    parameters, where an array may not be longer than the list of filters. *)
Definition parms_unused (look : Z * Z -> option obj) (d : dict) (ts : list ftype) : Prop :=
  ts = [] \/
  (forall v, entry look (bs "DecodeParms") d v -> ~ In FFlate ts /\ forall l, v = OArr l -> (length l <= length ts)%nat).
(** References lead to values. *)
Definition no_chains (look : Z * Z -> option obj) : Prop := forall r v, look r = Some v -> forall n g, v <> ORef n g.
(** The dictionary says which filters the stream has. *)
Definition declared (look : Z * Z -> option obj) (s : sobj) : Prop := create_filter_list look (ODict (sdict s)) = Ok (sfilters s).

(** ** The text of an indirect object with a stream, ISO 32000 7.3.8: the dictionary with the length, the keyword, the data *)
Definition object_text (fl : wflags) (tight : bool) (r : ref) (d : dict) (data : list Z) (text : list Z) : Prop :=
  exists t, write fl (ODict d) = Ok t /\ dict_get (bs "Length") d = Some (ONum (Z.of_nat (length data))) /\
    text = dec (fst r) ++ bs " " ++ dec (snd r) ++ bs " obj" ++ (if tight then [] else [10]) ++ t ++ [10] ++
           bs "stream" ++ [10] ++ data ++ [10] ++ bs "endstream" ++ [10] ++ bs "endobj" ++ [10].

(** ** Object streams, ISO 32000 7.5.7 *)
(** What may follow a number that is to be read as a number *)
Definition no_reference (k : list Z) : Prop :=
  forall t2 r g r3, tok 4095 k = Some ((TLit, t2), r) -> from_chars_int t2 = Some g -> tok 4095 r <> Some ((TLit, [82]), r3).
(** The text of an object stands at a place. *)
Definition placed (data : list Z) (pos : Z) (o : obj) : Prop :=
  exists fl t k, flags_ok fl /\ wf_obj default_params o /\ (S (inner o) <= 256)%nat /\ write fl o = Ok t /\
    0 <= pos <= Z.of_nat (length data) /\ skipn (Z.to_nat pos) data = t ++ k /\ (needs_stop o -> stops k) /\ (needs_safe o -> no_reference k).
(** The table: number and offset of every member *)
Fixpoint table (ms : list (Z * Z * obj)) : list Z :=
  match ms with
  | [] => []
  | (n, off, _) :: r => dec n ++ [32] ++ dec off ++ [32] ++ table r
  end.
(** A layout: the members one after the other, each on its own lines *)
Fixpoint layout (fl : wflags) (off : Z) (ms : list (Z * obj)) : res (list (Z * Z * obj) * list Z) :=
  match ms with
  | [] => Ok ([], [])
  | (n, o) :: r =>
    do t <- write fl o;
    do (l, b) <- layout fl (off + Z.of_nat (length t) + 1) r;
    Ok ((n, off, o) :: l, t ++ [10] ++ b)
  end.
