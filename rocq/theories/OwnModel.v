(** Containers and ownership: src/pdfmm/base/PdfObject.cpp, PdfDataContainer.cpp, PdfArray.cpp, PdfDictionary.cpp,
    PdfVariant.cpp. Delayed loading is taken as done. *)
From Coq Require Import String.
From Verif Require Import Base TokModel FilterModel.
Local Open Scope Z_scope.

(** ** Dictionaries as containers of values *)

(** PdfDictionary.cpp:105-121 AddKey: try_emplace, otherwise the value is assigned *)
Definition add_key {A} (k : list Z) (v : A) (d : list (list Z * A)) := dict_add k v d.
(** 123-133 getKey, 172-177 HasKey *)
Definition get_key {A} (k : list Z) (d : list (list Z * A)) : option A := dict_get k d.
Definition has_key {A} (k : list Z) (d : list (list Z * A)) : bool := match dict_get k d with Some _ => true | None => false end.
(** 179-188 RemoveKey *)
Fixpoint erase_key {A} (k : list Z) (d : list (list Z * A)) : list (list Z * A) :=
  match d with
  | [] => []
  | (k', v) :: t => if beq k' k then t else (k', v) :: erase_key k t
  end.
Definition remove_key {A} (k : list Z) (d : list (list Z * A)) : bool * list (list Z * A) :=
  if has_key k d then (true, erase_key k d) else (false, d).

(** ** Inherited attributes *)

(** 134-146 findKey; [look] is the object list of the document *)
Definition dict_find (look : Z * Z -> option obj) (k : list Z) (d : list (list Z * obj)) : option obj :=
  match get_key k d with
  | None => None
  | Some (ORef n g) => look (n, g)
  | Some o => Some o
  end.
(** 148-170 findKeyParent; the code recurses without a limit, Fuel means it is still running. The parent is found
    in the same document. *)
Fixpoint find_key_parent (fuel : nat) (look : Z * Z -> option obj) (k : list Z) (d : list (list Z * obj)) : res (option obj) :=
  match fuel with
  | O => Fuel
  | S f =>
    match dict_find look k d with
    | Some o => Ok (Some o)
    | None =>
      match dict_find look (bs "Parent") d with
      | Some (ODict p) => find_key_parent f look k p
      | _ => Ok None
      end
    end
  end.

(** ** Comparison *)

(** PdfVariant.cpp:333-414 operator== of two different variants; the elements of containers are direct objects
    (PdfObject.cpp:818-836). Strings are as read (not evaluated), reals are exact decimals. *)
Fixpoint var_eq (a b : obj) : bool :=
  match a, b with
  | ONull, _ => true
  | OBool x, OBool y => Bool.eqb x y
  | ONum x, ONum y => x =? y
  | OReal m k, OReal n l => m * 10 ^ Z.of_nat l =? n * 10 ^ Z.of_nat k
  | OName x, OName y => beq x y
  | OStr _ x, OStr _ y => beq x y
  | ORef n g, ORef n' g' => (n =? n') && (g =? g')
  | OArr x, OArr y =>
    (fix go (x y : list obj) : bool :=
       match x, y with
       | [], [] => true
       | u :: x', v :: y' => var_eq u v && go x' y'
       | _, _ => false
       end) x y
  | ODict x, ODict y =>
    (fix go (x y : list (list Z * obj)) : bool :=
       match x, y with
       | [], [] => true
       | (j, u) :: x', (k, v) :: y' => beq j k && var_eq u v && go x' y'
       | _, _ => false
       end) x y
  | _, _ => false
  end.
(** 416-498 operator!= of two different variants *)
Definition var_ne (a b : obj) : bool := true.

(** An object for comparison: where it lives, its document, its reference if indirect, its value *)
Record cobj := mk_cobj { c_addr : Z; c_doc : Z; c_ref : option (Z * Z); c_val : obj }.
Definition oref_eqb (a b : option (Z * Z)) : bool :=
  match a, b with
  | Some (n, g), Some (n', g') => (n =? n') && (g =? g')
  | None, None => true
  | _, _ => false
  end.
(** PdfObject.cpp:818-836 and 838-856; the reference of a direct object is (0, 0) *)
Definition obj_eq (a b : cobj) : bool :=
  if c_addr a =? c_addr b then true
  else match c_ref a with
       | Some _ => (c_doc a =? c_doc b) && oref_eqb (c_ref a) (c_ref b)
       | None => var_eq (c_val a) (c_val b)
       end.
Definition obj_ne (a b : cobj) : bool :=
  if negb (c_addr a =? c_addr b) then true
  else match c_ref a with
       | Some _ => negb ((c_doc a =? c_doc b) && oref_eqb (c_ref a) (c_ref b))
       | None => negb (var_eq (c_val a) (c_val b))
       end.

(** ** Ownership *)

(** An object with its value: [par], m_Parent is set (then it is the enclosing container); [doc], m_Document is
    set; [own], m_Owner of the container is set (then it is this object); the capacity of the vector of an array. *)
Inductive node :=
| Leaf (par doc : bool) (o : obj)
| Arr (par doc own : bool) (cap : nat) (l : list node)
| Dic (par doc own : bool) (d : list (list Z * node)).
Definition par (n : node) : bool := match n with Leaf p _ _ => p | Arr p _ _ _ _ => p | Dic p _ _ _ => p end.
Definition doc (n : node) : bool := match n with Leaf _ d _ => d | Arr _ d _ _ _ => d | Dic _ d _ _ => d end.
(** the same value in an object with other flags *)
Definition flags (p d : bool) (n : node) : node :=
  match n with Leaf _ _ o => Leaf p d o | Arr _ _ w c l => Arr p d w c l | Dic _ _ w m => Dic p d w m end.
Fixpoint content (n : node) : obj :=
  match n with
  | Leaf _ _ o => o
  | Arr _ _ _ _ l => OArr (map content l)
  | Dic _ _ _ d => ODict (map (fun kv => (fst kv, content (snd kv))) d)
  end.

(** PdfObject.cpp:423-428 SetParent in a container whose owner has the document [d], 149-159 SetDocument (nothing
    below changes when the document is the same), 178-192 SetVariantOwner, PdfDataContainer.cpp:21-25 SetOwner,
    setChildrenParent of the containers *)
Fixpoint set_parent (d : bool) (n : node) : node :=
  match n with
  | Leaf _ _ o => Leaf true d o
  | Arr _ d' w c l => if Bool.eqb d' d then Arr true d w c l else Arr true d true c (map (set_parent d) l)
  | Dic _ d' w m => if Bool.eqb d' d then Dic true d w m else Dic true d true (map (fun kv => (fst kv, set_parent d (snd kv))) m)
  end.
Definition set_owner (n : node) : node :=
  match n with
  | Leaf _ _ _ => n
  | Arr p d _ c l => Arr p d true c (map (set_parent d) l)
  | Dic p d _ m => Dic p d true (map (fun kv => (fst kv, set_parent d (snd kv))) m)
  end.
(** PdfObject.cpp:100-121 copy constructor (with PdfVariant.cpp:257-300 and the copy constructors of the containers,
    which have no owner yet), move constructor *)
Fixpoint copy (n : node) : node :=
  match n with
  | Leaf _ _ o => Leaf false false o
  | Arr _ _ _ _ l => Arr false false true (length l) (map (fun x => set_parent false (copy x)) l)
  | Dic _ _ _ m => Dic false false true (map (fun kv => (fst kv, set_parent false (copy (snd kv)))) m)
  end.
(** the container of an object that is moved still has the owner it had *)
Definition disown (n : node) : node :=
  match n with Leaf _ _ _ => n | Arr p d _ c l => Arr p d false c l | Dic p d _ m => Dic p d false m end.
Definition move_new (n : node) : node := set_owner (disown (flags false false n)).
(** 366-378, 432-452 assignment and move assignment: the target keeps its place *)
Definition move_to (t n : node) : node := set_owner (disown (flags (par t) (doc t) n)).
Definition assign (t n : node) : node := move_to t (copy n).

(** the value of a key changed in place *)
Fixpoint upd_key {A} (k : list Z) (x : A) (m : list (list Z * A)) : list (list Z * A) :=
  match m with
  | [] => []
  | (k', v) :: t => if beq k k' then (k', x) :: t else (k', v) :: upd_key k x t
  end.
Fixpoint upd {A} (i : nat) (x : A) (l : list A) : list A :=
  match l, i with
  | [], _ => []
  | _ :: t, O => x :: t
  | y :: t, S j => y :: upd j x t
  end.
(** std::vector of libstdc++: reallocation move-constructs all elements into storage of twice the size *)
Definition grow_cap (n : nat) : nat := Nat.max 1 (2 * n).
(** PdfArray.cpp:233-243 add, insertAt at the end *)
Definition vec_add (d : bool) (x : node) (cap : nat) (l : list node) : nat * list node :=
  let x' := set_parent d (move_new x) in
  if (length l <? cap)%nat then (cap, l ++ [x']) else (grow_cap (length l), map move_new l ++ [x']).
(** insertion before the end without reallocation: the last element is move-constructed into the new slot, the
    others are move-assigned one slot up, the new value is move-assigned *)
Fixpoint shift_up (v : node) (l : list node) : list node :=
  match l with
  | [] => [move_new v]
  | s :: t => move_to s v :: shift_up s t
  end.
Fixpoint vec_shift (i : nat) (x : node) (l : list node) : list node :=
  match i, l with
  | S j, y :: t => y :: vec_shift j x t
  | _, _ => shift_up x l
  end.
Definition vec_insert (d : bool) (i : nat) (x : node) (cap : nat) (l : list node) : nat * list node :=
  if (i =? length l)%nat then vec_add d x cap l
  else
    let x' := move_new x in
    if (length l <? cap)%nat
    then let l' := vec_shift i x' l in
         (cap, match nth_error l' i with Some y => upd i (set_parent d y) l' | None => l' end)
    else (grow_cap (length l), map move_new (firstn i l) ++ set_parent d x' :: map move_new (skipn i l)).
(** std::vector::erase: the following elements are move-assigned one slot down *)
Fixpoint shift_down (s : node) (l : list node) : list node :=
  match l with [] => [] | y :: t => move_to s y :: shift_down y t end.
Fixpoint vec_erase (i : nat) (l : list node) : list node :=
  match l, i with
  | [], _ => []
  | s :: t, O => shift_down s t
  | y :: t, S j => y :: vec_erase j t
  end.

(** Modifications of one object *)
Inductive op :=
| OpSet (o : obj)              (* SetBool, SetNumber, SetReal, SetName, SetString, SetReference *)
| OpAssign (n : node)          (* operator= *)
| OpPut (k : list Z) (n : node)  (* GetDictionary().AddKey *)
| OpDel (k : list Z)           (* GetDictionary().RemoveKey *)
| OpClear                      (* Clear of the container *)
| OpAdd (n : node)             (* GetArray().Add *)
| OpInsert (i : nat) (n : node)  (* GetArray().insert *)
| OpErase (i : nat)            (* GetArray().RemoveAt *)
| OpSetAt (i : nat) (n : node) (* GetArray().SetAt *)
| OpReserve (k : nat)          (* GetArray().Reserve *)
| OpResize (k : nat).          (* GetArray().resize, PdfArray.cpp:367-374 *)

Definition same_kind (a b : obj) : bool :=
  match a, b with
  | OBool _, OBool _ | ONum _, ONum _ | OReal _ _, OReal _ _ | OName _, OName _ | OStr _ _, OStr _ _ | ORef _ _, ORef _ _ => true
  | _, _ => false
  end.
(** The object after the operation and whether its SetDirty was called (through PdfDataContainer.cpp:44-48 when the
    container has an owner, or from a child that has a parent); None when the operation raises. SetNumber on a real
    and SetReal on a number, which convert, are left out. A new value is copied first (AddKey, Add and insert with a const reference). *)
Definition run_op (o : op) (n : node) : option (node * bool) :=
  match o, n with
  (* PdfObject.cpp:706-746 *)
  | OpSet v, Leaf p d w => if same_kind w v then Some (Leaf p d v, true) else None
  | OpAssign x, _ => Some (assign n x, true)
  (* PdfDictionary.cpp:96-121: a new key makes the dictionary dirty, an existing one its value *)
  | OpPut k x, Dic p d w m =>
    match get_key k m with
    | None => Some (Dic p d w (add_key k (set_parent d (move_new (copy x))) m), w)
    | Some y => Some (Dic p d w (upd_key k (set_parent d (assign y x)) m), w && par y)
    end
  | OpDel k, Dic p d w m => let '(r, m') := remove_key k m in Some (Dic p d w m', r && w)
  | OpClear, Dic p d w m => Some (Dic p d w [], match m with [] => false | _ => w end)
  | OpClear, Arr p d w c l => Some (Arr p d w c [], match l with [] => false | _ => w end)
  | OpAdd x, Arr p d w c l => let '(c', l') := vec_add d (copy x) c l in Some (Arr p d w c' l', w)
  | OpInsert i x, Arr p d w c l =>
    if (i <=? length l)%nat then let '(c', l') := vec_insert d i (copy x) c l in Some (Arr p d w c' l', w) else None
  | OpErase i, Arr p d w c l => if (i <? length l)%nat then Some (Arr p d w c (vec_erase i l), w) else None
  | OpSetAt i x, Arr p d w c l =>
    match nth_error l i with Some y => Some (Arr p d w c (upd i (assign y x) l), w && par y) | None => None end
  | OpReserve k, Arr p d w c l => Some (if (k <=? c)%nat then n else Arr p d w k (map move_new l), false)
  (* new elements are default constructed: empty dictionaries without a parent; nothing is made dirty *)
  | OpResize k, Arr p d w c l =>
    if (k <=? length l)%nat then Some (Arr p d w c (firstn k l), false)
    else
      let new := repeat (Dic false false true []) (k - length l) in
      if (k <=? c)%nat then Some (Arr p d w c (l ++ new), false)
      else Some (Arr p d w (length l + Nat.max (length l) (k - length l))%nat (map move_new l ++ new), false)
  | _, _ => None
  end.

(** The operation on the object reached through the containers; a change below makes an object dirty when the
    links are there: PdfObject.cpp:484-497 SetDirty, PdfDataContainer.cpp:44-48 *)
Inductive stepp := AtIdx (i : nat) | AtKey (k : list Z).
Fixpoint at_path (p : list stepp) (o : op) (n : node) : option (node * bool) :=
  match p with
  | [] => run_op o n
  | AtIdx i :: r =>
    match n with
    | Arr pa d w c l =>
      match nth_error l i with
      | Some x => match at_path r o x with Some (x', b) => Some (Arr pa d w c (upd i x' l), b && par x' && w) | None => None end
      | None => None
      end
    | _ => None
    end
  | AtKey k :: r =>
    match n with
    | Dic pa d w m =>
      match get_key k m with
      | Some x => match at_path r o x with Some (x', b) => Some (Dic pa d w (upd_key k x' m), b && par x' && w) | None => None end
      | None => None
      end
    | _ => None
    end
  end.
(** The state of an indirect object: its value and m_IsDirty. [None] is ResetDirty (454-482), as after writing. *)
Definition mstep (a : option (list stepp * op)) (s : node * bool) : option (node * bool) :=
  match a with
  | None => Some (fst s, false)
  | Some (p, o) => match at_path p o (fst s) with Some (n, b) => Some (n, snd s || b) | None => None end
  end.

(** PdfDictionary.cpp:134-146 FindKey on a dictionary in an object, with PdfDataContainer.cpp:32-42 *)
Definition node_find (look : Z * Z -> option obj) (k : list Z) (n : node) : res (option obj) :=
  match n with
  | Dic _ d w m =>
    match get_key k m with
    | None => Ok None
    | Some (Leaf _ _ (ORef a g)) => if w && d then Ok (look (a, g)) else Err EInvalidHandle
    | Some x => Ok (Some (content x))
    end
  | _ => Err EInvalidDataType
  end.

(** ** Assignment between parts of one value *)
Fixpoint get_at (p : list stepp) (n : node) : option node :=
  match p with
  | [] => Some n
  | AtIdx i :: r => match n with Arr _ _ _ _ l => match nth_error l i with Some x => get_at r x | None => None end | _ => None end
  | AtKey k :: r => match n with Dic _ _ _ m => match get_key k m with Some x => get_at r x | None => None end | _ => None end
  end.
Fixpoint set_at (p : list stepp) (y : node) (n : node) : node :=
  match p with
  | [] => y
  | AtIdx i :: r => match n with Arr pa d w c l => match nth_error l i with Some x => Arr pa d w c (upd i (set_at r y x) l) | None => n end | _ => n end
  | AtKey k :: r => match n with Dic pa d w m => match get_key k m with Some x => Dic pa d w (upd_key k (set_at r y x) m) | None => n end | _ => n end
  end.
Definition step_eqb (a b : stepp) : bool :=
  match a, b with AtIdx i, AtIdx j => (i =? j)%nat | AtKey k, AtKey l => beq k l | _, _ => false end.
Fixpoint prefix (a b : list stepp) : bool :=
  match a, b with
  | [], _ => true
  | x :: a', y :: b' => step_eqb x y && prefix a' b'
  | _, [] => false
  end.
Definition on_heap (n : node) : bool :=
  match n with Leaf _ _ (OName _) | Leaf _ _ (OStr _ _) | Arr _ _ _ _ _ | Dic _ _ _ _ => true | _ => false end.
(** [tgt = src] for two objects inside one object (PdfArray.cpp:123-132 SetAt with an element of the array):
    PdfVariant.cpp:240-245 frees the old value of the target, then copies the source. Reading freed memory, or the
    half-assigned target inside the source, is undefined. *)
Definition assign_within (tgt src : list stepp) (n : node) : res node :=
  match get_at tgt n, get_at src n with
  | Some t, Some s =>
    if prefix tgt src then (if on_heap t then UB else Ok (set_at tgt (assign t s) n))
    else if prefix src tgt then UB
    else Ok (set_at tgt (assign t s) n)
  | _, _ => Err EInvalidHandle
  end.
