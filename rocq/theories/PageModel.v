(** The page tree: src/pdfmm/base/PdfPageCollection.cpp, PdfPageTreeCache.cpp and parts of PdfPage.cpp.
    The objects of the document are a map from references to values ([None]: no such object); delayed loading is taken
    as done. A PdfObject pointer is the reference of the object. What an operation has changed before it raises is not
    kept. *)
From Coq Require Import String.
From Verif Require Import Base TokModel OwnModel ListModel.
Local Open Scope Z_scope.

Definition heap : Type := ref -> option obj.
(** The object with reference [r] gets the value [o], or is removed *)
Definition set (r : ref) (o : option obj) (h : heap) : heap := fun q => if ref_eqb q r then o else h q.
(** PdfObject::GetDictionary of a valid pointer *)
Definition dict_at (h : heap) (r : ref) : res (list (list Z * obj)) :=
  match h r with Some (ODict d) => Ok d | Some _ => Err EInvalidDataType | None => UB end.
(** PdfDictionary::AddKey on the dictionary of an object *)
Definition set_key (h : heap) (r : ref) (k : list Z) (v : obj) : res heap :=
  do d <- dict_at h r; Ok (set r (Some (ODict (add_key k v d))) h).
(** int from an unsigned *)
Definition to_int (u : Z) : Z := if u <? 2 ^ 31 then u else u - 2 ^ 32.
Definition int_ok (z : Z) : bool := (- 2 ^ 31 <=? z) && (z <? 2 ^ 31).

(** ** PdfPageCollection.cpp *)

(** 339-353 isTypePage, isTypePages: FindKeyAs<PdfName> raises on another type, gives the empty name without an entry *)
Definition type_of (h : heap) (d : list (list Z * obj)) : res (list Z) :=
  match dict_find h (bs "Type") d with
  | None => Ok []
  | Some (OName n) => Ok n
  | Some _ => Err EInvalidDataType
  end.
(** 355-362 getChildCount *)
Definition child_count (h : heap) (d : list (list Z * obj)) : res Z :=
  match dict_find h (bs "Count") d with
  | None => Ok 0
  | Some (ONum n) => Ok (u32 n)
  | Some _ => Err EInvalidDataType
  end.
Definition count_at (h : heap) (r : ref) : res Z := do d <- dict_at h r; child_count h d.

(** 274-334: the loop over the kids. [rec] is the recursive call. [None]: a null pointer is returned. The list of
    parents is returned with the page. *)
Fixpoint find_kid (rec : Z -> ref -> list ref -> res (option (ref * list ref))) (h : heap) (self : ref)
    (parents : list ref) (kids : list obj) (index : Z) : res (option (ref * list ref)) :=
  match kids with
  | [] => Ok None
  | ORef n g :: t =>
    match h (n, g) with
    | None => Ok None
    | Some (ODict d) =>
      do ty <- type_of h d;
      if beq ty (bs "Pages") then
        do c <- child_count h d;
        if c <? u32 (index + 1) then find_kid rec h self parents t (u32 (index - c))
        else
          let ps := parents ++ [self] in
          if existsb (ref_eqb (n, g)) ps then Err EPageNotFound
          else rec index (n, g) ps
      else if beq ty (bs "Page") then
        if index =? 0 then Ok (Some ((n, g), parents ++ [self]))
        else find_kid rec h self parents t (index - 1)
      else Ok None
    | Some _ => Err EInvalidDataType
    end
  | _ :: _ => Ok None
  end.
(** 233-337 getPageNode. [depth] is what the recursion guard leaves (PdfDeclarationsPrivate.cpp:1220-1233). *)
Fixpoint page_node (depth : nat) (h : heap) (index : Z) (r : ref) (parents : list ref) : res (option (ref * list ref)) :=
  match depth with
  | O => Err EInvalidXRef
  | S depth' =>
    do d <- dict_at h r;
    if negb (has_key (bs "Kids") d) then Err EInvalidKey
    else
      match dict_find h (bs "Kids") d with
      | Some (OArr kids) =>
        do c <- child_count h d;
        if c <? index then Ok None
        else find_kid (page_node depth' h) h r parents kids index
      | _ => Err EInvalidDataType
      end
  end.

(** 364-381 getPosInKids *)
Fixpoint kid_pos (page : ref) (kids : list obj) (i : Z) : res Z :=
  match kids with
  | [] => Ok (-1)
  | ORef n g :: t => if ref_eqb (n, g) page then Ok i else kid_pos page t (i + 1)
  | _ :: _ => Err EInvalidDataType
  end.
(** MustFindKey("Kids").GetArray() *)
Definition kids_at (h : heap) (r : ref) : res (list obj) :=
  do d <- dict_at h r;
  match dict_find h (bs "Kids") d with
  | None => Err ENoObject
  | Some (OArr l) => Ok l
  | Some _ => Err EInvalidDataType
  end.
Definition pos_in_kids (h : heap) (page parent : ref) : res Z := do l <- kids_at h parent; kid_pos page l 0.

(** 477-487 changePagesCount *)
Definition change_count (h : heap) (r : ref) (delta : Z) : res heap :=
  do c <- count_at h r;
  if delta =? 0 then Ok h
  else if negb (int_ok (to_int c + delta)) then UB
  else set_key h r (bs "Count") (ONum (to_int c + delta)).
Fixpoint change_counts (h : heap) (rs : list ref) (delta : Z) : res heap :=
  match rs with
  | [] => Ok h
  | r :: t => do h' <- change_count h r delta; change_counts h' t delta
  end.

(** 398-424: the new array of kids; [index] is an int, [i] the position in the old array *)
Definition to_ref (r : ref) : obj := ORef (fst r) (snd r).
Fixpoint new_kids (pages : list ref) (index i : Z) (pushed : bool) (old : list obj) : list obj * bool :=
  match old with
  | [] => ([], pushed)
  | k :: t =>
    let now := negb pushed && (index <? i) in
    let '(rest, p) := new_kids pages index (i + 1) (pushed || now) t in
    ((if now then map to_ref pages else []) ++ k :: rest, p)
  end.
(** 430-433 *)
Fixpoint set_parents (h : heap) (pages : list ref) (parent : ref) : res heap :=
  match pages with
  | [] => Ok h
  | p :: t => do h' <- set_key h p (bs "Parent") (to_ref parent); set_parents h' t parent
  end.
(** 383-434 insertPagesIntoNode *)
Definition insert_into_node (h : heap) (parent : ref) (parents : list ref) (index : Z) (pages : list ref) : res heap :=
  match pages with
  | [] => Err EInvalidHandle
  | _ =>
    do old <- kids_at h parent;
    let '(kids, pushed) := new_kids pages index 0 false old in
    let kids := if negb pushed && (index + 1 =? Z.of_nat (length old)) then kids ++ map to_ref pages else kids in
    do h1 <- set_key h parent (bs "Kids") (OArr kids);
    do h2 <- change_counts h1 (rev parents) (Z.of_nat (length pages));
    set_parents h2 pages parent
  end.
(** 111-160 InsertPagesAt, without the cache. [None]: logged and not inserted. [max]: the limit of the recursion guard *)
Definition insert_pages_at (max : nat) (root : ref) (h : heap) (at_index : Z) (pages : list ref) : res (option (Z * heap)) :=
  do n <- count_at h root;
  let after := negb (n =? 0) && (n <=? at_index) in
  let at_index := if after then n else at_index in
  do pivot <- (if n =? 0 then Ok None else page_node max h (if after then n - 1 else at_index) root []);
  match pivot with
  | Some (page, (_ :: _) as parents) =>
    let parent := last parents root in
    do pos <- pos_in_kids h page parent;
    do h' <- insert_into_node h parent parents (if after then pos else pos - 1) pages;
    Ok (Some (at_index, h'))
  | _ =>
    if negb (n =? 0) then Ok None
    else do h' <- insert_into_node h root [root] (-1) pages; Ok (Some (at_index, h'))
  end.

(** 471-475 deletePageNode: the array is changed where it is. Erasing outside of it is undefined. *)
Fixpoint erase_nth {A} (i : nat) (l : list A) : list A :=
  match l, i with
  | [], _ => []
  | _ :: t, O => t
  | x :: t, S j => x :: erase_nth j t
  end.
Definition delete_node (h : heap) (parent : ref) (index : Z) : res heap :=
  do kids <- kids_at h parent;
  if (index <? 0) || (Z.of_nat (length kids) <=? index) then UB
  else
    let kids' := OArr (erase_nth (Z.to_nat index) kids) in
    do d <- dict_at h parent;
    match get_key (bs "Kids") d with
    | Some (ORef n g) => Ok (set (n, g) (Some kids') h)
    | _ => set_key h parent (bs "Kids") kids'
    end.
(** 489-500 isEmptyPageNode *)
Definition is_empty_node (h : heap) (r : ref) : res bool :=
  do d <- dict_at h r;
  do c <- child_count h d;
  do e <- match dict_find h (bs "Kids") d with
          | None => Ok true
          | Some (OArr l) => Ok (match l with [] => true | _ => false end)
          | Some _ => Err EInvalidDataType
          end;
  Ok ((c =? 0) || e).
(** 454-468: nodes left without pages are removed, from the nearest parent on; never the root. There is nothing
    after the last parent. *)
Fixpoint remove_empty (h : heap) (root : ref) (rparents : list ref) : res heap :=
  match rparents with
  | [] => Ok h
  | p :: t =>
    do e <- is_empty_node h p;
    do h' <- (if e && negb (ref_eqb p root) then
                match t with
                | [] => UB
                | q :: _ => do pos <- pos_in_kids h p q; do h1 <- delete_node h q pos; Ok (set p None h1)
                end
              else Ok h);
    remove_empty h' root t
  end.
(** 436-469 deletePageFromNode *)
Definition delete_from_node (h : heap) (root parent : ref) (parents : list ref) (index : Z) : res heap :=
  do h1 <- delete_node h parent index;
  do h2 <- change_counts h1 (rev parents) (-1);
  remove_empty h2 root (rev parents).
(** 197-231 RemovePageAt, without the cache and the /OpenAction of the catalog *)
Definition remove_page_at (max : nat) (root : ref) (h : heap) (at_index : Z) : res heap :=
  do node <- page_node max h at_index root [];
  match node with
  | Some (page, (_ :: _) as parents) =>
    let parent := last parents root in
    do pos <- pos_in_kids h page parent;
    delete_from_node h root parent parents pos
  | _ => Err EPageNotFound
  end.

(** ** PdfPageTreeCache.cpp: the PdfPage objects by index, each with its object and the index it was made with *)
Definition cache : Type := list (option (ref * Z)).
(** 16-20 *)
Definition new_cache (size : Z) : cache := if size <? 2 ^ 20 then repeat None (Z.to_nat size) else [].
(** 22-28 *)
Definition cached (c : cache) (i : Z) : option (ref * Z) := nth (Z.to_nat i) c None.
(** 30-40; std::vector::resize *)
Definition resize (n : nat) (c : cache) : cache := firstn n c ++ repeat None (n - length c).
Fixpoint put_nth (i : nat) (p : option (ref * Z)) (c : cache) : cache :=
  match c, i with
  | [], _ => []
  | _ :: t, O => p :: t
  | x :: t, S j => x :: put_nth j p t
  end.
Definition cache_page (c : cache) (i : Z) (p : ref * Z) : cache :=
  let c := if Z.of_nat (length c) <=? i then resize (Z.to_nat (i + 1)) c else c in
  put_nth (Z.to_nat i) (Some p) c.
(** 58-70 InsertPlaceHolders *)
Definition place_holders (c : cache) (i : Z) (n : nat) : cache :=
  let c := if Z.of_nat (length c) <=? i then resize (Z.to_nat i) c else c in
  firstn (Z.to_nat i) c ++ repeat None n ++ skipn (Z.to_nat i) c.
(** 72-79 DeletePage *)
Definition uncache (c : cache) (i : Z) : cache := if Z.of_nat (length c) <=? i then c else erase_nth (Z.to_nat i) c.

(** ** The operations on the document *)

(** The limit of the recursion guard, the root of the page tree, the objects, the cache *)
Record pages := mk_pages { pmax : nat; proot : ref; pheap : heap; pcache : cache }.
(** PdfPageCollection.cpp:30-32: the pages of a loaded document *)
Definition open_pages (max : nat) (root : ref) (h : heap) : res pages :=
  do n <- count_at h root; Ok (mk_pages max root h (new_cache n)).
(** 39-42 GetCount *)
Definition page_count (s : pages) : res Z := count_at (pheap s) (proot s).
(** 60-77 getPage; the construction of a PdfPage (its resources and contents) is left out *)
Definition with_cache (s : pages) (c : cache) : pages := mk_pages (pmax s) (proot s) (pheap s) c.
Definition get_page (s : pages) (i : Z) : res (ref * Z) * pages :=
  match cached (pcache s) i with
  | Some p => (Ok p, s)
  | None =>
    match page_node (pmax s) (pheap s) i (proot s) [] with
    | Ok (Some (r, _)) => (Ok (r, i), with_cache s (cache_page (pcache s) i (r, i)))
    | Ok None => (Err EPageNotFound, s)
    | Err e => (Err e, s)
    | UB => (UB, s)
    | Fuel => (Fuel, s)
    end
  end.
(** 44-58 GetPageAt *)
Definition get_page_at (s : pages) (i : Z) : res (ref * Z) * pages :=
  match page_count s with
  | Ok n => if n <=? i then (Err EPageNotFound, s) else get_page s i
  | Err e => (Err e, s)
  | UB => (UB, s)
  | Fuel => (Fuel, s)
  end.
(** 89-103 getPage by reference; [k] pages are still to be looked at. The count is the same all the time. *)
Fixpoint get_page_from (k : nat) (s : pages) (i : Z) (r : ref) : res (ref * Z) * pages :=
  match k with
  | O => (Err EPageNotFound, s)
  | S k' =>
    match get_page s i with
    | (Ok p, s') => if ref_eqb (fst p) r then (Ok p, s') else get_page_from k' s' (i + 1) r
    | (x, s') => (x, s')
    end
  end.
Definition get_page_ref (s : pages) (r : ref) : res (ref * Z) * pages :=
  match page_count s with
  | Ok n => get_page_from (Z.to_nat n) s 0 r
  | Err e => (Err e, s)
  | UB => (UB, s)
  | Fuel => (Fuel, s)
  end.
(** 105-160 InsertPageAt, InsertPagesAt *)
Definition insert_pages (s : pages) (i : Z) (ps : list ref) : res pages :=
  do x <- insert_pages_at (pmax s) (proot s) (pheap s) i ps;
  match x with
  | Some (i', h') => Ok (mk_pages (pmax s) (proot s) h' (place_holders (pcache s) i' (length ps)))
  | None => Ok s
  end.
(** 162-182 CreatePage, CreatePageAt; [r] is the reference of the new object, [box] its /MediaBox *)
Definition new_page (box : obj) : obj := ODict (add_key (bs "MediaBox") box (add_key (bs "Type") (OName (bs "Page")) [])).
Definition create_page_at (s : pages) (i : Z) (r : ref) (box : obj) : res pages :=
  do n <- page_count s;
  let i := if n <? i then n else i in
  let s := mk_pages (pmax s) (proot s) (set r (Some (new_page box)) (pheap s)) (pcache s) in
  do s <- insert_pages s i [r];
  Ok (mk_pages (pmax s) (proot s) (pheap s) (cache_page (pcache s) i (r, i))).
Definition create_page (s : pages) (r : ref) (box : obj) : res pages :=
  do n <- page_count s; create_page_at s n r box.
(** 197-231 RemovePageAt; the cache is changed first *)
Definition remove_page (s : pages) (i : Z) : res unit * pages :=
  let s' := with_cache s (uncache (pcache s) i) in
  match remove_page_at (pmax s) (proot s) (pheap s) i with
  | Ok h => (Ok tt, mk_pages (pmax s) (proot s) h (pcache s'))
  | Err e => (Err e, s')
  | UB => (UB, s')
  | Fuel => (Fuel, s')
  end.
(** PdfDocument.cpp:325-329 deletePages *)
Fixpoint delete_pages (s : pages) (i : Z) (n : nat) : res unit * pages :=
  match n with
  | O => (Ok tt, s)
  | S m => match remove_page s i with (Ok _, s') => delete_pages s' i m | x => x end
  end.

(** ** PdfPage.cpp *)

(** 513-529 getResources: the resources of the page or, if it has none, what the loop over the parents (from the root
    to the nearest) leaves *)
Fixpoint last_resources (h : heap) (parents : list ref) (found : option obj) : res (option obj) :=
  match parents with
  | [] => Ok found
  | p :: t => do d <- dict_at h p; last_resources h t (dict_find h (bs "Resources") d)
  end.
Definition page_resources (h : heap) (page : ref) (parents : list ref) : res (option obj) :=
  do d <- dict_at h page;
  match dict_find h (bs "Resources") d with
  | Some o => Ok (Some o)
  | None => last_resources h parents None
  end.

(** 340-373: what the kids before [self] add to the page number, an unsigned *)
Fixpoint number_before (h : heap) (self : ref) (kids : list obj) (acc : Z) : res Z :=
  match kids with
  | [] => Ok acc
  | ORef n g :: t =>
    if ref_eqb (n, g) self then Ok acc
    else
      match h (n, g) with
      | None => Err ENoObject
      | Some (ODict d) =>
        if has_key (bs "Type") d then
          match dict_find h (bs "Type") d with
          | None => Err ENoObject
          | Some (OName ty) =>
            if beq ty (bs "Pages") then
              match dict_find h (bs "Count") d with
              | None => number_before h self t acc
              | Some (ONum c) => number_before h self t (u32 (acc + c))
              | Some _ => Err EInvalidDataType
              end
            else number_before h self t (u32 (acc + 1))
          | Some _ => Err EInvalidDataType
          end
        else number_before h self t (u32 (acc + 1))
      | Some _ => Err EInvalidDataType
      end
  | _ :: _ => Err EInvalidDataType
  end.
(** 328-384 GetPageNumber: along the chain of parents, at most 1000 of them. [parent]: the value of the entry; a direct
    one has the reference 0 0. *)
Definition parent_of (h : heap) (d : list (list Z * obj)) : option (ref * obj) :=
  match get_key (bs "Parent") d with
  | None => None
  | Some (ORef n g) => match h (n, g) with Some o => Some ((n, g), o) | None => None end
  | Some o => Some ((0, 0), o)
  end.
Fixpoint page_number_up (left : nat) (h : heap) (self : ref) (parent : option (ref * obj)) (acc : Z) : res Z :=
  match parent with
  | None => Ok (u32 (acc + 1))
  | Some (r, ODict d) =>
    do acc' <- match dict_find h (bs "Kids") d with
               | None => Ok acc
               | Some (OArr kids) => number_before h self kids acc
               | Some _ => Err EInvalidDataType
               end;
    match left with
    | O => Err EBrokenFile
    | S left' => page_number_up left' h r (parent_of h d) acc'
    end
  | Some _ => Err EInvalidDataType
  end.
Definition page_number (h : heap) (page : ref) : res Z :=
  do d <- dict_at h page; page_number_up 1000 h page (parent_of h d) 0.
