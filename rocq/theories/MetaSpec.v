(** What the metadata of a document are, and what calls mean for them *)
From Coq Require Import String Sorted.
From Verif Require Import Base TokModel DateModel XmpModel XmpSpec MetaModel.
Local Open Scope Z_scope.

(** The Info dictionary has a string under a key, directly or through a reference *)
Definition info_says (look : Z * Z -> option obj) (d : list (list Z * obj)) (k v : list Z) : Prop :=
  exists h o, In (k, o) d /\ (o = OStr h v \/ exists n g, o = ORef n g /\ look (n, g) = Some (OStr h v)).
Definition tells (x : doc) (k v : list Z) : Prop := exists d, info x = Some d /\ info_says (objects x) d k v.
(** What the dictionary says, or else what comes later *)
Definition first_of (P : list Z -> Prop) (later r : option (list Z)) : Prop :=
  (exists v, P v /\ r = Some v) \/ ((forall v, ~ P v) /\ r = later).
Definition first_date (P : list Z -> Prop) (later r : option date) : Prop :=
  (exists v d, P v /\ try_parse v = Some d /\ r = Some d) \/ ((forall v, ~ P v) /\ r = later).

(** A document as it is loaded (dictionaries are maps, which are sorted), with the metadata [a]: those of the Info dictionary come before those of the packet, which are [pm]. What the packet
    says of the creator is ignored (C134), so that only the dictionary can say it *)
Definition proper_packet (p : xml) : Prop := clear_packet p \/ exists kids, normal kids p /\ single kids.
Definition loaded (x : doc) : Prop :=
  init x = false /\ cache x = no_meta /\ match info x with Some d => Sorted.StronglySorted (fun a b => bytes_lt (fst a) (fst b) = true) d | None => True end /\
  match stream x with Some p => proper_packet p | None => True end.
Definition has_meta (x : doc) (pm a : meta) : Prop :=
  first_of (tells x (bs "Title")) (m_title pm) (m_title a) /\ first_of (tells x (bs "Author")) (m_author pm) (m_author a) /\
  first_of (tells x (bs "Subject")) (m_subject pm) (m_subject a) /\ first_of (tells x (bs "Keywords")) (m_keywords pm) (m_keywords a) /\
  first_of (tells x (bs "Creator")) None (m_creator a) /\ first_of (tells x (bs "Producer")) (m_producer pm) (m_producer a) /\
  first_date (tells x (bs "CreationDate")) (m_created pm) (m_created a) /\ first_date (tells x (bs "ModDate")) (m_modified pm) (m_modified a) /\
  m_level a = m_level pm.

(** The calls, and what they mean *)
Inductive call := SetCreated (v : option date) (b : bool) | SetModified (v : option date) (b : bool) | SetLevel (l : level) (b : bool) | Sync (force : bool)
  | Save (now : date) | GetText (k : kind) | GetCreated | GetModified | GetLevel.
Definition meant (c : call) (a : meta) : meta :=
  match c with
  | SetCreated v _ => mk_meta (m_title a) (m_author a) (m_subject a) (m_keywords a) (m_creator a) (m_producer a) v (m_modified a) (m_level a)
  | SetModified v _ => mk_meta (m_title a) (m_author a) (m_subject a) (m_keywords a) (m_creator a) (m_producer a) (m_created a) v (m_level a)
  | Save now => mk_meta (m_title a) (m_author a) (m_subject a) (m_keywords a) (m_creator a) (m_producer a) (m_created a) (Some now) (m_level a)
  | SetLevel l _ => mk_meta (m_title a) (m_author a) (m_subject a) (m_keywords a) (m_creator a) (m_producer a) (m_created a) (m_modified a) l
  | _ => a
  end.
Inductive answer := NoAnswer | AText (o : option (list Z)) | ADate (o : option date) | ALevel (l : level).
Definition reply (c : call) (a : meta) : answer :=
  match c with
  | GetText KTitle => AText (m_title a) | GetText KAuthor => AText (m_author a) | GetText KSubject => AText (m_subject a)
  | GetText KKeywords => AText (m_keywords a) | GetText KCreator => AText (m_creator a) | GetText KProducer => AText (m_producer a)
  | GetText _ => AText None | GetCreated => ADate (m_created a) | GetModified => ADate (m_modified a) | GetLevel => ALevel (m_level a)
  | _ => NoAnswer
  end.
Definition call_ok (c : call) : Prop :=
  match c with SetCreated v _ => date_ok v | SetModified v _ => date_ok v | Save now => date_ok (Some now) | _ => True end.
Fixpoint replies (l : list call) (a : meta) : list answer := match l with [] => [] | c :: t => reply c a :: replies t (meant c a) end.
Fixpoint after (l : list call) (a : meta) : meta := match l with [] => a | c :: t => after t (meant c a) end.

(** The calls of the model *)
Definition step (e : env) (c : call) (x : doc) : res (doc * answer) :=
  match c with
  | SetCreated v b => do x <- set_date e KCreated v b x; Ok (x, NoAnswer)
  | SetModified v b => do x <- set_date e KModified v b x; Ok (x, NoAnswer)
  | SetLevel l b => do x <- set_level e l b x; Ok (x, NoAnswer)
  | Sync f => do x <- sync e f x; Ok (x, NoAnswer)
  | Save now => do x <- before_write e now x; Ok (x, NoAnswer)
  | GetText k => do (x, r) <- get_text e k x; Ok (x, AText r)
  | GetCreated => do (x, r) <- get_date e KCreated x; Ok (x, ADate r)
  | GetModified => do (x, r) <- get_date e KModified x; Ok (x, ADate r)
  | GetLevel => do (x, r) <- get_level e x; Ok (x, ALevel r)
  end.
Fixpoint play (e : env) (l : list call) (x : doc) : res (doc * list answer) :=
  match l with
  | [] => Ok (x, [])
  | c :: t => do (x, r) <- step e c x; do (x, rs) <- play e t x; Ok (x, r :: rs)
  end.
(** The document that is loaded from what was written *)
Definition reopened (x : doc) : doc := mk_doc (objects x) (info x) (stream x) no_meta false false None.
