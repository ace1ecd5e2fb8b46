(** What a document that is written while it is made has to contain: vocabulary *)
From Coq Require Import String.
From Verif Require Import Base TokModel WriteModel FilterModel ListModel StreamModel ImmediateModel.
Local Open Scope Z_scope.
Local Notation dict := (list (list Z * obj)) (only parsing).

(** The bytes given to a stream since it was opened last *)
Definition given (r : ref) (acc : list Z) (x : op) : list Z :=
  match x with
  | Open q _ => if ref_eqb q r then [] else acc
  | Put q b => if ref_eqb q r then acc ++ b else acc
  | _ => acc
  end.
Definition content (r : ref) (calls : list op) : list Z := fold_left (given r) calls [].
(** The data goes to the file at once. *)
Definition direct (d : sdoc) (r : ref) : Prop := exists len l, streams d r = Some (Direct len l false).
(** The entry for the length is left to the library. *)
Definition keeps_length (x : op) : Prop := match x with Set_ _ k _ => k <> bs "Length" | _ => True end.
(** The text of a value *)
Definition value_text (o : wopts) (r : ref) (e : dict) (text : list Z) : Prop :=
  exists t, write (wfl o) (ODict e) = Ok t /\ text = dec (fst r) ++ [32] ++ dec (snd r) ++ bs " obj" ++ (if wtight o then [] else [10]) ++ t ++ [10] ++ bs "stream" ++ [10].
Definition stream_end : list Z := [10] ++ bs "endstream" ++ [10] ++ bs "endobj" ++ [10].
(** An object with a stream stands at a place of the file, with this dictionary and this data. *)
Definition stands (o : wopts) (file : list Z) (off : Z) (r : ref) (e : dict) (data : list Z) : Prop :=
  0 <= off /\ exists h k, value_text o r e h /\ skipn (Z.to_nat off) file = h ++ data ++ stream_end ++ k.
(** Closing the document has written all objects: [f] is what there is then. *)
Definition completed (z : zlib) (n : nat) (o : wopts) (d f : sdoc) : Prop := write_all z n o (objects (finish_last d)) (finish_last d) = (Ok tt, f).
