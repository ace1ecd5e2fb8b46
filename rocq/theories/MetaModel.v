(** The metadata of a document: src/pdfmm/base/PdfInfo.cpp, PdfMetadata.cpp, common/nullable.h, the metadata stream of PdfCatalog.cpp and the
    keywords of PdfDeclarationsPrivate.cpp. Strings are their texts (their encodings are C45), the metadata stream is the tree that libxml2 reads
    from it, and a packet that is written is read as the same tree. The Info dictionary is one object of which no other is a part; what a failing
    call leaves behind is left out. *)
From Coq Require Import String.
From Verif Require Import Base TokModel OwnModel TextModel DateModel XmpModel.
Local Open Scope Z_scope.

(** PdfMetadata.h 155-160, and the parts of the document that it uses: the objects, the Info dictionary, the metadata stream of the catalog *)
Record doc := mk_doc { objects : Z * Z -> option obj; info : option (list (list Z * obj)); stream : option xml;
  cache : meta; init : bool; synced : bool; packet : option xml }.

(** ** PdfInfo.cpp *)

(** 44-52 getStringFromInfoDict *)
Definition info_text (look : Z * Z -> option obj) (d : list (list Z * obj)) (k : list Z) : option (list Z) :=
  match dict_find look k d with Some (OStr _ s) => Some s | _ => None end.
(** 148-164 GetCreationDate and GetModDate; PdfDate.cpp 80-90 Parse *)
Definition info_date (look : Z * Z -> option obj) (d : list (list Z * obj)) (k : list Z) : res (option date) :=
  match info_text look d k with
  | None => Ok None
  | Some s => match try_parse s with Some t => Ok (Some t) | None => Err EInvalidDataType end
  end.
(** 54-101, 176-190: the setters *)
Definition info_put (k : list Z) (v : option (list Z)) (d : list (list Z * obj)) : list (list Z * obj) :=
  match v with Some s => add_key k (OStr false s) d | None => snd (remove_key k d) end.
(** 103-116 SetTrapped, 166-174 GetTrapped *)
Definition put_trapped (v : option (list Z)) (d : list (list Z * obj)) : list (list Z * obj) :=
  match v with
  | Some s => add_key (bs "Trapped") (OName (if beq s (bs "True") || beq s (bs "False") then s else bs "Unknown")) d
  | None => snd (remove_key (bs "Trapped") d)
  end.
Definition trapped_raw (x : doc) : option (list Z) :=
  match info x with
  | None => None
  | Some d => match dict_find (objects x) (bs "Trapped") d with Some (OName s) => Some s | _ => None end
  end.

(** ** PdfMetadata.cpp *)

(** The keys of the Info dictionary *)
Definition info_key (k : kind) : list Z :=
  match k with
  | KTitle => bs "Title" | KAuthor => bs "Author" | KSubject => bs "Subject" | KKeywords => bs "Keywords" | KCreator => bs "Creator"
  | KProducer => bs "Producer" | KCreated => bs "CreationDate" | KModified => bs "ModDate" | _ => []
  end.
Definition field (k : kind) (m : meta) : option (list Z) :=
  match k with
  | KTitle => m_title m | KAuthor => m_author m | KSubject => m_subject m | KKeywords => m_keywords m | KCreator => m_creator m
  | KProducer => m_producer m | _ => None
  end.
Definition put_field (k : kind) (v : option (list Z)) (m : meta) : meta :=
  let 'mk_meta t a s w c p d1 d2 l := m in
  match k with
  | KTitle => mk_meta v a s w c p d1 d2 l | KAuthor => mk_meta t v s w c p d1 d2 l | KSubject => mk_meta t a v w c p d1 d2 l
  | KKeywords => mk_meta t a s v c p d1 d2 l | KCreator => mk_meta t a s w v p d1 d2 l | KProducer => mk_meta t a s w c v d1 d2 l | _ => m
  end.
Definition date_field (k : kind) (m : meta) : option date := match k with KCreated => m_created m | KModified => m_modified m | _ => None end.
Definition put_date (k : kind) (v : option date) (m : meta) : meta :=
  let 'mk_meta t a s w c p d1 d2 l := m in
  match k with KCreated => mk_meta t a s w c p v d2 l | KModified => mk_meta t a s w c p d1 v l | _ => m end.
Definition put_level (v : level) (m : meta) : meta := let 'mk_meta t a s w c p d1 d2 _ := m in mk_meta t a s w c p d1 d2 v.
Definition or_else {A} (a b : option A) : option A := match a with Some _ => a | None => b end.
(** 334-398 ensureInitialized *)
Definition read_info (look : Z * Z -> option obj) (d : list (list Z * obj)) (m : meta) : res meta :=
  do c <- info_date look d (bs "CreationDate");
  do u <- info_date look d (bs "ModDate");
  let f k := or_else (info_text look d (info_key k)) (field k m) in
  Ok (mk_meta (f KTitle) (f KAuthor) (f KSubject) (f KKeywords) (f KCreator) (f KProducer) c u (m_level m)).
Definition join (a b : meta) : meta :=
  mk_meta (or_else (m_title a) (m_title b)) (or_else (m_author a) (m_author b)) (or_else (m_subject a) (m_subject b))
    (or_else (m_keywords a) (m_keywords b)) (or_else (m_creator a) (m_creator b)) (or_else (m_producer a) (m_producer b))
    (or_else (m_created a) (m_created b)) (or_else (m_modified a) (m_modified b)) (m_level b).
Definition ensure (e : env) (x : doc) : res doc :=
  if init x then Ok x
  else
    do c <- match info x with Some d => read_info (objects x) d (cache x) | None => Ok (cache x) end;
    do (p, m) <- get_meta e (stream x);
    Ok (match p with
        | Some _ => mk_doc (objects x) (info x) (stream x) (join c m) true true p
        | None => mk_doc (objects x) (info x) (stream x) c true (synced x) None
        end).
(** 400-408 syncXMPMetadata; PdfCatalog.cpp 56-71 SetMetadataStreamValue, which invalidates all (315-326) *)
Definition sync_xmp (e : env) (force : bool) (x : doc) : res doc :=
  match packet x, force with
  | None, false => Ok x
  | _, _ => do p <- update e (packet x) (cache x); Ok (mk_doc (objects x) (info x) (Some p) no_meta false true None)
  end.
(** 282-289 SyncXMPMetadata *)
Definition sync (e : env) (force : bool) (x : doc) : res doc := do x <- ensure e x; if synced x then Ok x else sync_xmp e force x.
(** common/nullable.h 240-250: operator== of a value and a reference *)
Definition same_ref (a b : option (list Z)) : bool :=
  match a, b with Some s, Some t => negb (beq s t) | None, None => false | _, _ => true end.
(** PdfDate.cpp 190-193; nullable.h 215-226 *)
Definition same_off (a b : option Z) : bool := match a, b with Some s, Some t => s =? t | None, None => true | _, _ => false end.
Definition same_date (a b : option date) : bool :=
  match a, b with Some s, Some t => same_off (d_off s) (d_off t) && (d_secs s =? d_secs t) | None, None => true | _, _ => false end.
(** PdfDocument.cpp 335-345 GetOrCreateInfo *)
Definition the_info (x : doc) : list (list Z * obj) := match info x with Some d => d | None => [] end.
Definition finish (e : env) (b : bool) (x : doc) : res doc :=
  if b then sync_xmp e false x else Ok (mk_doc (objects x) (info x) (stream x) (cache x) (init x) false (packet x)).
(** 22-37, 45-59, 67-82, 104-122, 131-147, 154-169: the setters of texts; SetAuthor does not initialise *)
Definition set_text (e : env) (k : kind) (v : option (list Z)) (b : bool) (x : doc) : res doc :=
  do x <- match k with KAuthor => Ok x | _ => ensure e x end;
  if same_ref (field k (cache x)) v then Ok x
  else finish e b (mk_doc (objects x) (Some (info_put (info_key k) v (the_info x))) (stream x) (put_field k v (cache x)) (init x) (synced x) (packet x)).
(** 39-43 and so on: the getters *)
Definition get_text (e : env) (k : kind) (x : doc) : res (doc * option (list Z)) := do x <- ensure e x; Ok (x, field k (cache x)).
(** 176-214 *)
Definition set_date (e : env) (k : kind) (v : option date) (b : bool) (x : doc) : res doc :=
  do x <- ensure e x;
  if same_date (date_field k (cache x)) v then Ok x
  else finish e b (mk_doc (objects x) (Some (info_put (info_key k) (option_map (date_text false) v) (the_info x))) (stream x) (put_date k v (cache x))
                     (init x) (synced x) (packet x)).
Definition get_date (e : env) (k : kind) (x : doc) : res (doc * option date) := do x <- ensure e x; Ok (x, date_field k (cache x)).
(** 216-242 *)
Definition set_trapped (v : option (list Z)) (x : doc) : doc :=
  mk_doc (objects x) (Some (put_trapped v (the_info x))) (stream x) (cache x) (init x) (synced x) (packet x).
Definition get_trapped (x : doc) : list Z :=
  match trapped_raw x with Some s => if beq s (bs "True") || beq s (bs "False") then s else bs "Unknown" | None => bs "Unknown" end.
(** 304-313 EnsureXMPMetadata *)
Definition ensure_xmp (e : env) (x : doc) : res doc :=
  do p <- match packet x with Some p => Ok p | None => update e None (cache x) end;
  let d := info_put (bs "ModDate") (option_map (date_text false) (m_modified (cache x)))
             (info_put (bs "CreationDate") (option_map (date_text false) (m_created (cache x))) (the_info x)) in
  Ok (mk_doc (objects x) (Some d) (stream x) (cache x) (init x) (synced x) (Some p)).
(** 254-280 *)
Definition level_eqb (a b : level) : bool :=
  match a, b with
  | LUnknown, LUnknown | L1B, L1B | L1A, L1A | L2B, L2B | L2A, L2A | L2U, L2U | L3B, L3B | L3A, L3A | L3U, L3U | L4E, L4E | L4F, L4F => true
  | _, _ => false
  end.
Definition set_level (e : env) (l : level) (b : bool) (x : doc) : res doc :=
  do x <- ensure e x;
  if level_eqb (m_level (cache x)) l then Ok x
  else
    do x <- (if level_eqb l LUnknown then Ok x else ensure_xmp e x);
    finish e b (mk_doc (objects x) (info x) (stream x) (put_level l (cache x)) (init x) (synced x) (packet x)).
Definition get_level (e : env) (x : doc) : res (doc * level) := do x <- ensure e x; Ok (x, m_level (cache x)).
(** 291-302 TakeXMPPacket *)
Definition take_packet (e : env) (x : doc) : res (doc * option xml) :=
  match packet x with
  | None => Ok (x, None)
  | Some p =>
    do p <- (if synced x then Ok p else update e (Some p) (cache x));
    Ok (mk_doc (objects x) (info x) (stream x) no_meta false false None, Some p)
  end.
(** PdfMemDocument.cpp 299-305: what Save does to the metadata *)
Definition before_write (e : env) (now : date) (x : doc) : res doc := set_date e KModified (Some now) true x.

(** ** Keywords *)

(** PdfDeclarationsPrivate.cpp 487-502 ToPdfKeywordsString *)
Definition keywords_text (l : list (list Z)) : list Z :=
  match l with [] => [] | k :: t => k ++ flat_map (fun k => [13; 10] ++ k) t end.
(** 456-485 ToPdfKeywordsList; [tok] is what was read since tokenStart. The bytes of the UTF-8 text are read instead of its code points *)
Definition push_token (tok : list Z) (r : list (list Z)) : list (list Z) := match tok with [] => r | _ => tok :: r end.
Fixpoint split_keywords (tok s : list Z) : list (list Z) :=
  match s with
  | [] => push_token tok []
  | c :: t => if (c =? 13) || (c =? 10) then push_token (tok ++ [c]) (split_keywords [] t) else split_keywords (tok ++ [c]) t
  end.
Definition keywords_list (s : list Z) : res (list (list Z)) := do _ <- utf8_points s; Ok (split_keywords [] s).
(** 96-102 SetKeywords, 124-129 GetKeywords *)
Definition set_keywords (e : env) (l : list (list Z)) (b : bool) (x : doc) : res doc :=
  set_text e KKeywords (match l with [] => None | _ => Some (keywords_text l) end) b x.
Definition get_keywords (e : env) (x : doc) : res (doc * list (list Z)) :=
  do (x, s) <- get_text e KKeywords x;
  match s with None => Ok (x, []) | Some s => do l <- keywords_list s; Ok (x, l) end.
