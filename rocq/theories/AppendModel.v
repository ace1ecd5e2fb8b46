(** Appending the pages of a document: src/pdfmm/base/PdfDocument.cpp. The objects have been copied with their numbers shifted (ListModel.append,
    C32); the outlines and the names are left out. *)
From Coq Require Import String.
From Verif Require Import Base TokModel OwnModel ListModel PageModel.
Local Open Scope Z_scope.

(** 150-156 *)
Definition inheritable : list (list Z) := [bs "Resources"; bs "MediaBox"; bs "CropBox"; bs "Rotate"].
(** 167-181: the entries that the page [sd] of the other document inherits; [look] are the objects of that document *)
Fixpoint adopt_keys (fuel : nat) (look : heap) (diff : Z) (sd : list (list Z * obj)) (ks : list (list Z)) (d : list (list Z * obj)) : res (list (list Z * obj)) :=
  match ks with
  | [] => Ok d
  | k :: t =>
    do a <- find_key_parent fuel look k sd;
    adopt_keys fuel look diff sd t (match a with Some o => add_key k (fix_refs diff o) d | None => d end)
  end.
(** 162-181; that the copy is not a dictionary (it then has no entries to change) is an error here *)
Definition adopt_page (fuel : nat) (look : heap) (diff : Z) (page : ref) (h : heap) : res heap :=
  do sd <- dict_at look page;
  match h (u32 (fst page + diff), snd page) with
  | None => Err ENoObject
  | Some (ODict d) =>
    do d <- adopt_keys fuel look diff sd inheritable (if has_key (bs "Parent") d then snd (remove_key (bs "Parent") d) else d);
    Ok (set (u32 (fst page + diff), snd page) (Some (ODict d)) h)
  | Some _ => Err EInvalidDataType
  end.
(** 158-184: [src] are the pages of the other document *)
Fixpoint append_pages (fuel : nat) (look : heap) (diff : Z) (src : list ref) (s : pages) : res pages :=
  match src with
  | [] => Ok s
  | p :: t =>
    do h <- adopt_page fuel look diff p (pheap s);
    let s := mk_pages (pmax s) (proot s) h (pcache s) in
    do n <- page_count s;
    do s <- insert_pages s n [(u32 (fst p + diff), snd p)];
    append_pages fuel look diff t s
  end.
(** 288-331 AppendDocumentPages with a range, after the whole document was appended: [own] and [n] are the numbers of pages of this document before and
    of the other one; unsigned arithmetic *)
Definition keep_range (own n idx cnt : Z) (s : pages) : res unit * pages :=
  let left_start := 0 in
  let left_count := idx in
  let right_start := u32 (idx + cnt) in
  let right_count := u32 (n - right_start) in
  let left_start := u32 (left_start + own) in
  let right_start := u32 (right_start + own) in
  match (if 0 <? right_count then delete_pages s right_start (Z.to_nat right_count) else (Ok tt, s)) with
  | (Ok _, s) => if 0 <? left_count then delete_pages s left_start (Z.to_nat left_count) else (Ok tt, s)
  | x => x
  end.
