(** Outlines: src/pdfmm/base/PdfOutlines.cpp.
    An outline item is a C++ object and an indirect object; both have the same number here, so a pointer is written into a
    dictionary as the reference with its number. Of the dictionary only the entries that link items are kept, as references;
    titles, destinations, actions and colours are left out. Use of a deleted item is undefined. *)
From Verif Require Import Base.
Local Open Scope Z_scope.

(** Fields m_ParentOutline, m_Prev, m_Next, m_First, m_Last, and the entries /Parent /Prev /Next /First /Last *)
Record links := mk_links { up : option Z; prev : option Z; next : option Z; first : option Z; last_ : option Z }.
(** [mems]: the items in memory; [dics]: their dictionaries in the document; [top]: the next object number *)
Record ost := mk_ost { mems : Z -> option links; dics : Z -> option links; top : Z }.
Definition upd {A} (f : Z -> option A) (i : Z) (v : option A) : Z -> option A := fun j => if j =? i then v else f j.
Definition item (s : ost) (i : Z) : res links := match mems s i with Some l => Ok l | None => UB end.
(** A field and the entry of the dictionary *)
Definition change (s : ost) (i : Z) (f : links -> links) : res ost :=
  match mems s i, dics s i with
  | Some m, Some d => Ok (mk_ost (upd (mems s) i (Some (f m))) (upd (dics s) i (Some (f d))) (top s))
  | _, _ => UB
  end.
(** 178-212 SetPrevious, SetNext, SetLast, SetFirst: nullptr removes the entry *)
Definition set_prev (s : ost) (i : Z) (v : option Z) : res ost := change s i (fun l => mk_links (up l) v (next l) (first l) (last_ l)).
Definition set_next (s : ost) (i : Z) (v : option Z) : res ost := change s i (fun l => mk_links (up l) (prev l) v (first l) (last_ l)).
Definition set_last (s : ost) (i : Z) (v : option Z) : res ost := change s i (fun l => mk_links (up l) (prev l) (next l) (first l) v).
Definition set_first (s : ost) (i : Z) (v : option Z) : res ost := change s i (fun l => mk_links (up l) (prev l) (next l) v (last_ l)).
(** 18-44, 66-70 constructors of new items and of the root *)
Definition new_item (s : ost) (parent : option Z) : Z * ost :=
  let l := mk_links parent None None None None in
  (top s, mk_ost (upd (mems s) (top s) (Some l)) (upd (dics s) (top s) (Some l)) (top s + 1)).
(** 116-131: the part of InsertChildInternal that links the item *)
Definition link_child (s : ost) (this it : Z) : res ost :=
  do m <- item s this;
  do s <- match last_ m with Some l => do s <- set_next s l (Some it); set_prev s it (Some l) | None => Ok s end;
  do m <- item s this;
  do s <- set_first s this (match first m with None => Some it | f => f end);
  set_last s this (Some it).
(** 78-83 CreateChild *)
Definition create_child (s : ost) (this : Z) : res (Z * ost) :=
  do _ <- item s this;
  let (it, s) := new_item s (Some this) in
  do s <- link_child s this it; Ok (it, s).
(** 97-114: the check of InsertChild, with the climbing to the root; both pointers start as nullptr *)
Fixpoint root_of (fuel : nat) (s : ost) (i : Z) : res Z :=
  match fuel with O => Fuel | S fuel' => do m <- item s i; match up m with Some p => root_of fuel' s p | None => Ok i end end.
Fixpoint check_parent (fuel : nat) (s : ost) (this it : Z) (at_ : option Z) (root root_this : option Z) : res (option Z * option Z) :=
  match fuel with
  | O => Fuel
  | S fuel' =>
    match at_ with
    | None => Ok (root, root_this)
    | Some a =>
      do r <- root_of fuel' s a;
      if r =? it then Ok (Some it, root_this)
      else match root with
           | None => check_parent fuel' s this it None root (Some r)
           | Some _ => check_parent fuel' s this it (Some this) (Some r) root_this
           end
    end
  end.
Definition same_ptr (a b : option Z) : bool := match a, b with None, None => true | Some x, Some y => x =? y | _, _ => false end.
(** 85-88 InsertChild *)
Definition insert_child (fuel : nat) (s : ost) (this it : Z) : res ost :=
  do p <- check_parent fuel s this it (Some it) None None;
  if same_ptr (fst p) (snd p) then Err EOutlineItemAlreadyPresent else link_child s this it.
(** 134-176 CreateNext, both versions *)
Definition create_next (s : ost) (this : Z) : res (Z * ost) :=
  do m <- item s this;
  let (it, s) := new_item s (up m) in
  do s <- match next m with Some n => do s <- set_prev s n (Some it); set_next s it (Some n) | None => Ok s end;
  do s <- set_next s this (Some it);
  do s <- set_prev s it (Some this);
  do mi <- item s it;
  do s <- match up m, next mi with Some p, None => set_last s p (Some it) | _, _ => Ok s end;
  Ok (it, s).
(** 214-241 Erase; the loop is the repetition of the call while there is a first child *)
Fixpoint erase (fuel : nat) (s : ost) (this : Z) : res ost :=
  match fuel with
  | O => Fuel
  | S fuel' =>
    do m <- item s this;
    match first m with
    | Some c => do s <- erase fuel' s c; erase fuel' s this
    | None =>
      do s <- match prev m with Some p => set_next s p (next m) | None => Ok s end;
      do s <- match next m with Some n => set_prev s n (prev m) | None => Ok s end;
      do s <- match prev m, up m with
              | None, Some p => do mp <- item s p; if same_ptr (first mp) (Some this) then set_first s p (next m) else Ok s
              | _, _ => Ok s
              end;
      do s <- match next m, up m with
              | None, Some p => do mp <- item s p; if same_ptr (last_ mp) (Some this) then set_last s p (prev m) else Ok s
              | _, _ => Ok s
              end;
      Ok (mk_ost (upd (mems s) this None) (dics s) (top s))
    end
  end.

(** 46-64: the constructor from an object; [guard] is what the recursion guard leaves. The items already made are passed
    through, with the number of constructors run. An entry that is not a reference raises an error, like a missing object. *)
Fixpoint load (guard : nat) (d : Z -> option links) (i : Z) (parent previous : option Z) (a : (Z -> option links) * Z) : res ((Z -> option links) * Z) :=
  match guard with
  | O => Err EInvalidXRef
  | S guard' =>
    match d i with
    | None => Err ENoObject
    | Some l =>
      do a <- match first l with Some f => load guard' d f (Some i) None a | None => Ok a end;
      do a <- match next l with Some n => load guard' d n parent (Some i) a | None => Ok a end;
      Ok (upd (fst a) i (Some (mk_links parent previous (next l) (first l) None)), snd a + 1)
    end
  end.
Definition load_outlines (d : Z -> option links) (root n : Z) : res ost :=
  do a <- load 256 d root None None (fun _ => None, 0); Ok (mk_ost (fst a) d n).

(** Calls of a program *)
Inductive call := CChild (i : Z) | CNext (i : Z) | CErase (i : Z).
Definition run1 (fuel : nat) (s : ost) (c : call) : res ost :=
  match c with
  | CChild i => do p <- create_child s i; Ok (snd p)
  | CNext i => do p <- create_next s i; Ok (snd p)
  | CErase i => erase fuel s i
  end.
Fixpoint run (fuel : nat) (s : ost) (l : list call) : res ost :=
  match l with [] => Ok s | c :: l' => do s <- run1 fuel s c; run fuel s l' end.
