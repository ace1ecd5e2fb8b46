(** What a file with several cross-reference sections means: vocabulary for the properties of the parser *)
From Coq Require Import String.
From Verif Require Import Base TokModel WriteModel DictProofs ObjSpec XrefModel XrefSpec ParserModel.
Local Open Scope Z_scope.
Local Notation dict := (list (list Z * obj)) (only parsing).

(** A cross-reference section: its position in the file, its trailer dictionary, what it lists, table or stream *)
Record csec := mk_csec { coff : Z; cdict : dict; csecs : list section; cstream : bool }.
(** how deep the trailer is nested, in levels of the recursion guard *)
Definition cneed (x : csec) : nat := S (inner (ODict (cdict x))).

(** It is in the file: a table as text with its trailer, written in either layout, whatever follows; or an object whose
    loading gives the dictionary and the entries in the form of 7.5.8 *)
Definition present (E : penv) (x : csec) : Prop :=
  0 <= coff x <= Z.of_nat (length (pfile E)) /\ well_formed 0 (csecs x) /\ wf_obj default_params (ODict (cdict x)) /\
  if cstream x then
    pv13 E = true /\ (exists c k, skipn (Z.to_nat (coff x)) (pfile E) = c :: k /\ 48 <= c <= 57) /\
    Forall (fun s : section => fst (fst s) + snd (fst s) <= 8388607) (csecs x) /\ (forall n e, lists (csecs x) n e -> fits_stream e) /\
    (exists size, dict_get (bs "Size") (cdict x) = Some (ONum size)) /\
    dict_get (bs "W") (cdict x) = Some (OArr [ONum 1; ONum 4; ONum 2]) /\
    dict_get (bs "Index") (cdict x) = Some (OArr (map ONum (stream_index (csecs x)))) /\
    forall d, (cneed x <= d)%nat -> pstm E d (coff x)
      = Ok (cdict x, flat_map (fun y => entry_raw (snd y)) (flat_map (fun s : section => snd s) (csecs x)))
  else
    Forall (limits (pmagic E)) (csecs x) /\ (length (csecs x) < 512)%nat /\ dict_get (bs "XRefStm") (cdict x) = None /\
    exists fl t k, flags_ok fl /\ write fl (ODict (cdict x)) = Ok t /\
      skipn (Z.to_nat (coff x)) (pfile E) = table_text (csecs x) ++ bs "trailer" ++ [10] ++ t ++ k.

(** The newest first; /Prev leads from each to the next, counted from the header; the last one has none *)
Fixpoint linked (E : penv) (l : list csec) : Prop :=
  match l with
  | [] => False
  | [x] => dict_get (bs "Prev") (cdict x) = None
  | x :: ((y :: _) as t) => dict_get (bs "Prev") (cdict x) = Some (ONum (coff y - pmagic E)) /\ 0 < coff y - pmagic E /\ linked E t
  end.
Definition chain_ok (E : penv) (l : list csec) : Prop := Forall (present E) l /\ linked E l /\ NoDup (map coff l).

(** 7.5.6: the newest section that lists a number decides *)
Fixpoint newest (E : penv) (l : list csec) (n : Z) (r : rent) : Prop :=
  match l with
  | [] => False
  | x :: t => (exists e, lists (csecs x) n e /\ r = as_read (pmagic E) e) \/
              ((forall e, ~ lists (csecs x) n e) /\ newest E t n r)
  end.
(** the value of a key in the newest trailer that has it *)
Fixpoint newest_key (k : list Z) (l : list csec) : option obj :=
  match l with
  | [] => None
  | x :: t => match dict_get k (cdict x) with Some v => Some v | None => newest_key k t end
  end.

(** ** Header and end of the file *)
(** a word occurs at a position *)
Definition occurs (w l : list Z) (i : nat) : Prop := exists k, skipn i l = w ++ k.
Definition pdf_versions : list (list Z) := map bs ["1.0"; "1.1"; "1.2"; "1.3"; "1.4"; "1.5"; "1.6"; "1.7"; "2.0"]%string.

(** The last section has no /Prev, or it is a table whose /Prev leads back into the chain *)
Fixpoint closed (all l : list csec) : Prop :=
  match l with
  | [] => False
  | [x] => dict_get (bs "Prev") (cdict x) = None \/
           (cstream x = false /\ exists y, In y all /\ dict_get (bs "Prev") (cdict x) = Some (ONum (coff y)))
  | x :: ((y :: _) as t) => dict_get (bs "Prev") (cdict x) = Some (ONum (coff y)) /\ 0 < coff y /\ closed all t
  end.
(** The entries of a trailer that hold for the whole file, 7.5.5 *)
Definition file_keys : list (list Z) := [bs "Size"; bs "Root"; bs "Encrypt"; bs "Info"; bs "ID"].

(** The file has the header of a version at its start *)
Definition has_header (file v : list Z) : Prop := In v pdf_versions /\ exists r, file = bs "%PDF-" ++ v ++ r.
(** The last lines, 7.5.5: startxref, the number, the marker; at most 511 bytes from startxref to what precedes the marker *)
Definition has_end (strict : bool) (file : list Z) (n : Z) : Prop :=
  exists (a w w2 : list Z) (c : Z) (k : list Z), file = a ++ bs "startxref" ++ w ++ dec n ++ w2 ++ [c] ++ bs "%%EOF" ++ k /\
    a <> [] /\ w <> [] /\ Forall (fun c => is_ws c = true) (w ++ w2 ++ [c]) /\ 0 <= n < 2 ^ 63 /\
    (if strict then k = [] else forall i, (0 < i)%nat -> ~ occurs (bs "%%EOF") (bs "%%EOF" ++ k) i) /\
    (length (bs "startxref" ++ w ++ dec n ++ w2 ++ [c]) <= (if strict then 506 else 512))%nat.
