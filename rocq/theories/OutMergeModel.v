(** The outlines of a document that is appended to another: src/pdfmm/base/PdfDocument.cpp:85-195 and 272-283, the parts about outlines.
    Of the objects only those of outlines are kept, as in OutlineModel.v; the copies of the objects of the other document have numbers that are larger by
    [diff] (AppendModel.v, C32), which is at least the number of objects. *)
From Verif Require Import Base OutlineModel.
Local Open Scope Z_scope.

(** fixObjectReferences for the entries of an item *)
Definition shift_ref (diff : Z) (r : option Z) : option Z := option_map (fun i => i + diff) r.
Definition shift (diff : Z) (l : links) : links :=
  mk_links (shift_ref diff (up l)) (shift_ref diff (prev l)) (shift_ref diff (next l)) (shift_ref diff (first l)) (shift_ref diff (last_ l)).
(** The objects of both documents *)
Definition merged (d o : Z -> option links) (diff : Z) : Z -> option links :=
  fun j => match d j with Some l => Some l | None => option_map (shift diff) (o (j - diff)) end.
(** 188-189: the last of the items without parent *)
Fixpoint last_root (fuel : nat) (s : ost) (i : Z) : res Z :=
  match fuel with O => Fuel | S fuel' => do m <- item s i; match next m with Some n => last_root fuel' s n | None => Ok i end end.
(** 183-194; [own] and [other] are GetOutlines of the documents. A member function of a null pointer is called after its argument was made. *)
Definition append_outlines (fuel : nat) (s : ost) (own : option Z) (other : option (Z * ost)) (diff : Z) : res ost :=
  match other with
  | None => Ok s
  | Some (ro, o) =>
    let d := merged (dics s) (dics o) diff in
    let n := diff + top o in
    do m <- item o ro;
    match first m with
    | None => Ok (mk_ost (mems s) d n)
    | Some f =>
      do root <- (match own with Some r => do x <- last_root fuel s r; Ok (Some x) | None => Ok None end);
      do a <- load 256 d (f + diff) None None (mems s, 0);
      match root with
      | None => UB
      | Some r => insert_child fuel (mk_ost (fst a) d n) r (f + diff)
      end
    end
  end.
