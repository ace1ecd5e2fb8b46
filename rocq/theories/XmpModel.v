(** XMP packets: src/pdfmm/base/PdfXMPPacket.cpp, src/pdfmm/private/XMPUtils.cpp and XmlUtils.cpp. The packet is the tree of elements that
    libxml2 holds; reading and writing of the XML text by libxml2, its declarations of namespaces and the memory of the nodes are left out:
    a namespace is its prefix, and one prefix has one meaning in a packet (xmlReconciliateNs changes nothing then). The texts are bytes in
    UTF-8. The processing instructions around the root are left out. *)
From Coq Require Import String.
From Verif Require Import Base TokModel TextModel DateModel.
From Verif Require LinkModel ExtractModel.
Local Open Scope Z_scope.

(** ** Trees *)

(** The namespace of a node: none, or one with its prefix; the default namespace has no prefix (a null pointer) *)
Inductive xns := NoNs | Ns (p : option (list Z)).
(** An attribute: prefix, name, value. Attributes are never in the default namespace *)
Definition attr : Type := option (list Z) * list Z * list Z.
Inductive xml := XText (s : list Z) | XComment | XElem (n : xns) (name : list Z) (attrs : list attr) (kids : list xml).
Definition is_elem (x : xml) : bool := match x with XElem _ _ _ _ => true | _ => false end.
Definition rdf_ns : xns := Ns (Some (bs "rdf")).
(** xmlNodeGetContent: the texts below a node *)
Fixpoint content (x : xml) : list Z := match x with XText s => s | XComment => [] | XElem _ _ _ kids => flat_map content kids end.
(** XmlUtils.cpp 18-31, 38-51: the test of FindChildElement and FindSiblingNode; comparing with the prefix of the default namespace
    reads a null pointer *)
Definition is_tag (pre name : list Z) (x : xml) : res bool :=
  match x with
  | XElem NoNs _ _ _ => Ok false
  | XElem (Ns None) _ _ _ => UB
  | XElem (Ns (Some p)) nm _ _ => Ok (beq p pre && beq nm name)
  | _ => Ok false
  end.
(** 18-31 FindChildElement: the child, with what is before and after it *)
Fixpoint find_child (pre name : list Z) (kids : list xml) : res (option (list xml * xml * list xml)) :=
  match kids with
  | [] => Ok None
  | x :: t =>
    do b <- is_tag pre name x;
    if b then Ok (Some ([], x, t))
    else do o <- find_child pre name t;
         Ok (match o with Some (l, y, r) => Some (x :: l, y, r) | None => None end)
  end.
(** What libxml2 makes of a content that has other ampersands than the predefined entities *)
Record env := mk_env { e_other : list Z -> list xml }.
(** xmlStringGetNodeList, which reads the content given to xmlNodeSetContent and xmlNewChild: the predefined entities are replaced.
    None: another ampersand is there *)
Fixpoint entities (s : list Z) : option (list Z) :=
  match s with
  | [] => Some []
  | 38 :: t =>
    match t with
    | 108 :: 116 :: 59 :: t => option_map (cons 60) (entities t)
    | 103 :: 116 :: 59 :: t => option_map (cons 62) (entities t)
    | 97 :: 109 :: 112 :: 59 :: t => option_map (cons 38) (entities t)
    | 113 :: 117 :: 111 :: 116 :: 59 :: t => option_map (cons 34) (entities t)
    | 97 :: 112 :: 111 :: 115 :: 59 :: t => option_map (cons 39) (entities t)
    | _ => None
    end
  | c :: t => option_map (cons c) (entities t)
  end.
Definition text (s : list Z) : list xml := match s with [] => [] | _ => [XText s] end.
Definition set_content (e : env) (s : list Z) : list xml :=
  let s := LinkModel.c_str s in match entities s with Some t => text t | None => e_other e s end.

(** ** PdfXMPPacket.cpp: the normal form of a packet *)

(** XMPUtils.cpp 18-33, 289-337 SetListNodeContent with one value *)
Inductive ltype := LangAlt | Seq | Bag.
Definition ltype_name (t : ltype) : list Z := match t with LangAlt => bs "Alt" | Seq => bs "Seq" | Bag => bs "Bag" end.
Definition list_node (e : env) (t : ltype) (s : list Z) : xml :=
  XElem rdf_ns (ltype_name t) []
    [XElem rdf_ns (bs "li") (match t with LangAlt => [(Some (bs "xml"), bs "lang", bs "x-default")] | _ => [] end) (set_content e s)].
(** 31-34 s_knownListNodes, 249-265 tryFixArrayElement; XmlUtils.cpp 111-124 GetNodeName makes a string of the prefix, which is a null
    pointer for the default namespace *)
Definition known_list (n : xns) (name : list Z) : res (option ltype) :=
  match n with
  | NoNs => Ok None
  | Ns None => UB
  | Ns (Some p) =>
    let full := p ++ 58 :: name in
    Ok (if beq full (bs "dc:date") then Some Seq else if beq full (bs "dc:language") then Some Bag else None)
  end.
(** 267-291 shouldSkipAttribute *)
Definition attr_name (a : attr) : list Z := match fst (fst a) with Some p => p ++ 58 :: snd (fst a) | None => snd (fst a) end.
Definition skip_attr (a : attr) : bool :=
  beq (attr_name a) (bs "xml:lang") || beq (attr_name a) (bs "rdf:about") || beq (attr_name a) (bs "rdf:resource").
(** XmlUtils.cpp 70-85 FindAttribute rdf:parseType: the value, and the other attributes *)
Fixpoint parse_type (l : list attr) : option (list Z * list attr) :=
  match l with
  | [] => None
  | (p, n, v) :: t =>
    if match p with Some p => beq p (bs "rdf") | None => false end && beq n (bs "parseType") then Some (v, t)
    else match parse_type t with Some (v', t') => Some (v', (p, n, v) :: t') | None => None end
  end.
Definition is_resource (attrs : list attr) : option (list attr) :=
  match parse_type attrs with Some (v, rest) => if beq v (bs "Resource") then Some rest else None | None => None end.
(** The element that replaces an attribute of an element in the namespace [n]; without a namespace xmlNewChild takes that of the parent *)
Definition attr_elem (e : env) (n : xns) (a : attr) : xml :=
  XElem (match fst (fst a) with Some p => Ns (Some p) | None => n end) (snd (fst a)) [] (set_content e (snd a)).
Definition new_elems (e : env) (n : xns) (attrs : list attr) : list xml :=
  match is_resource attrs with Some _ => [] | None => map (attr_elem e n) (filter (fun a => negb (skip_attr a)) attrs) end.
(** 181-246 normalizeElement; [new] are the elements that replace attributes *)
Definition norm_elem (n : xns) (name : list Z) (attrs : list attr) (kids new : list xml) : xml :=
  match is_resource attrs with
  | Some rest => XElem n name [] (filter (fun x => negb (is_elem x)) kids ++ [XElem rdf_ns (bs "Description") rest (filter is_elem kids)])
  | None => XElem n name (filter skip_attr attrs) (kids ++ new)
  end.
(** PdfDeclarationsPrivate.cpp 605-617 IsStringEmptyOrWhiteSpace; the texts that libxml2 holds are UTF-8 *)
Definition blank (s : list Z) : bool := match utf8_points s with Ok cps => forallb ExtractModel.white cps | _ => false end.
(** 164-169: an element with a text only *)
Definition is_leaf (kids : list xml) : bool :=
  negb (existsb is_elem kids || match kids with XComment :: _ => true | _ => false end) && negb (blank (flat_map content kids)).
(** 145-179 normalizeQualifiersAndValues of an element that replaces an attribute: it has no attributes *)
Definition norm_new (e : env) (x : xml) : res xml :=
  match x with
  | XElem n name attrs kids =>
    if is_leaf kids then
      do k <- known_list n name;
      Ok (match k with Some t => XElem n name attrs [list_node e t (flat_map content kids)] | None => x end)
    else Ok x
  | _ => Ok x
  end.
Section Each.
Context {A B : Type} (f : A -> res B).
Fixpoint each (l : list A) : res (list B) :=
  match l with [] => Ok [] | x :: t => do y <- f x; do r <- each t; Ok (y :: r) end.
End Each.
(** 145-179 normalizeQualifiersAndValues: the children are those after the element itself was normalised, unless it had none *)
Fixpoint norm (e : env) (x : xml) : res xml :=
  match x with
  | XElem n name attrs kids =>
    if is_leaf kids then
      do k <- known_list n name;
      Ok (match k with
          | Some t => XElem n name attrs [list_node e t (flat_map content kids)]
          | None => norm_elem n name attrs kids (new_elems e n attrs)
          end)
    else
      do kids' <- each (norm e) kids;
      do new <- (if existsb is_elem kids then each (norm_new e) (new_elems e n attrs) else Ok (new_elems e n attrs));
      Ok (norm_elem n name attrs kids' new)
  | _ => Ok x
  end.
(** 113-142: the children of the further descriptions among [l], and what stays *)
Fixpoint merge (l : list xml) : res (list xml * list xml) :=
  match l with
  | [] => Ok ([], [])
  | x :: t =>
    do b <- is_tag (bs "rdf") (bs "Description") x;
    do (moved, rest) <- merge t;
    match x with
    | XElem _ _ _ kids => Ok (if b then (filter is_elem kids ++ moved, rest) else (moved, x :: rest))
    | _ => Ok (moved, x :: rest)
    end
  end.
(** 97-142 normalizeXMPMetadata *)
Definition normalize (e : env) (kids : list xml) : res (list xml) :=
  do o <- find_child (bs "rdf") (bs "RDF") kids;
  match o with
  | None => Ok kids
  | Some (l, rdf, r) =>
    do rdf <- norm e rdf;
    match rdf with
    | XElem n name attrs rk =>
      do d <- find_child (bs "rdf") (bs "Description") rk;
      match d with
      | Some (l2, XElem dn dname dattrs dk, r2) =>
        do (moved, rest) <- merge r2;
        Ok (l ++ XElem n name attrs (l2 ++ XElem dn dname dattrs (dk ++ moved) :: rest) :: r)
      | _ => Ok (l ++ rdf :: r)
      end
    | _ => Ok (l ++ rdf :: r)
    end
  end.
(** 50-65 Create, 329-336 findRootXMPMeta; [doc] is the root of what libxml2 reads, None when it reads nothing; the packet is its root *)
Definition create (e : env) (doc : option xml) : res (option xml) :=
  match doc with
  | Some (XElem n name attrs kids) =>
    if beq name (bs "xmpmeta") then do kids <- normalize e kids; Ok (Some (XElem n name attrs kids)) else Ok None
  | _ => Ok None
  end.
(** 293-327 createXMPDoc *)
Definition new_packet : xml := XElem (Ns (Some (bs "x"))) (bs "xmpmeta") [] [].
(** m_Description of a packet: the first description; None: a null pointer *)
Definition kids_of (x : xml) : list xml := match x with XElem _ _ _ k => k | _ => [] end.
Definition description (p : xml) : res (option (list xml)) :=
  do o <- find_child (bs "rdf") (bs "RDF") (kids_of p);
  match o with
  | None => Ok None
  | Some (_, rdf, _) =>
    do d <- find_child (bs "rdf") (bs "Description") (kids_of rdf);
    Ok (match d with Some (_, d, _) => Some (kids_of d) | None => None end)
  end.
(** 67-82 GetOrCreateDescription, 338-371; [f] changes the children of the description *)
Definition new_desc : xml := XElem rdf_ns (bs "Description") [(Some (bs "rdf"), bs "about", [])] [].
Definition put_kids (x : xml) (k : list xml) : xml := match x with XElem n name attrs _ => XElem n name attrs k | _ => x end.
Definition on_description (f : list xml -> res (list xml)) (p : xml) : res xml :=
  do o <- find_child (bs "rdf") (bs "RDF") (kids_of p);
  let '(l, rdf, r) := match o with Some t => t | None => (kids_of p, XElem rdf_ns (bs "RDF") [] [], []) end in
  do d <- find_child (bs "rdf") (bs "Description") (kids_of rdf);
  let '(l2, desc, r2) := match d with Some t => t | None => (kids_of rdf, new_desc, []) end in
  do k <- f (kids_of desc);
  Ok (put_kids p (l ++ put_kids rdf (l2 ++ put_kids desc k :: r2) :: r)).

(** ** XMPUtils.cpp: the properties *)

(** PdfDeclarations.h 86-99 PdfALevel *)
Inductive level := LUnknown | L1B | L1A | L2B | L2A | L2U | L3B | L3A | L3U | L4E | L4F.
(** PdfXMPMetadata.h *)
Record meta := mk_meta {
  m_title : option (list Z); m_author : option (list Z); m_subject : option (list Z); m_keywords : option (list Z);
  m_creator : option (list Z); m_producer : option (list Z); m_created : option date; m_modified : option date; m_level : level }.
Definition no_meta : meta := mk_meta None None None None None None None None LUnknown.
(** 411-435 getPDFALevelFromString *)
Definition level_of (s : list Z) : level :=
  if beq s (bs "1B") then L1B else if beq s (bs "1A") then L1A else if beq s (bs "2B") then L2B else if beq s (bs "2A") then L2A
  else if beq s (bs "2U") then L2U else if beq s (bs "3B") then L3B else if beq s (bs "3A") then L3A else if beq s (bs "3U") then L3U
  else if beq s (bs "4E") then L4E else if beq s (bs "4F") then L4F else LUnknown.
(** 437-494 getPdfALevelComponents *)
Definition components (l : level) : list Z * list Z * list Z :=
  match l with
  | L1B => (bs "1", bs "B", []) | L1A => (bs "1", bs "A", []) | L2B => (bs "2", bs "B", []) | L2A => (bs "2", bs "A", [])
  | L2U => (bs "2", bs "U", []) | L3B => (bs "3", bs "B", []) | L3A => (bs "3", bs "A", []) | L3U => (bs "3", bs "U", [])
  | L4E => (bs "4", bs "E", bs "2020") | L4F => (bs "4", bs "F", bs "2020") | LUnknown => ([], [], [])
  end.
(** 35-48, 347-395: the kinds and their elements *)
Inductive kind := KTitle | KAuthor | KSubject | KKeywords | KCreator | KProducer | KCreated | KModified | KPart | KConformance | KRevision.
Definition tag (k : kind) : list Z * list Z :=
  match k with
  | KTitle => (bs "dc", bs "title") | KAuthor => (bs "dc", bs "creator") | KSubject => (bs "dc", bs "description")
  | KKeywords => (bs "pdf", bs "Keywords") | KCreator => (bs "xmp", bs "CreatorTool") | KProducer => (bs "pdf", bs "Producer")
  | KCreated => (bs "xmp", bs "CreateDate") | KModified => (bs "xmp", bs "ModifyDate") | KPart => (bs "pdfaid", bs "part")
  | KConformance => (bs "pdfaid", bs "conformance") | KRevision => (bs "pdfaid", bs "rev")
  end.
(** 496-516 getElementText and getListElementText of a child of the description *)
Definition first_elem (x : xml) : option xml := List.find is_elem (kids_of x).
Definition list_text (x : xml) : option (list Z) :=
  match first_elem x with Some l => match first_elem l with Some li => Some (content li) | None => None end | None => None end.
Definition elem (k : kind) (kids : list xml) : res (option xml) :=
  do o <- find_child (fst (tag k)) (snd (tag k)) kids; Ok (match o with Some (_, x, _) => Some x | None => None end).
Definition elem_text (k : kind) (kids : list xml) : res (option (list Z)) := do o <- elem k kids; Ok (option_map content o).
Definition item_text (k : kind) (kids : list xml) : res (option (list Z)) :=
  do o <- elem k kids; Ok (match o with Some x => list_text x | None => None end).
(** PdfDate.cpp 105-112 ParseW3C *)
Definition w3c_date (o : option (list Z)) : res (option date) :=
  match o with None => Ok None | Some s => match try_parse_w3c s with Some d => Ok (Some d) | None => Err EInvalidDataType end end.
(** 50-115 GetXMPMetadata, from the children of the description *)
Definition read_meta (kids : list xml) : res meta :=
  do part <- elem_text KPart kids;
  do conf <- elem_text KConformance kids;
  do title <- item_text KTitle kids;
  do author <- item_text KAuthor kids;
  do subject <- item_text KSubject kids;
  do keywords <- elem_text KKeywords kids;
  do creator <- item_text KCreator kids;
  do producer <- elem_text KProducer kids;
  do created <- elem_text KCreated kids;
  do created <- w3c_date created;
  do modified <- elem_text KModified kids;
  do modified <- w3c_date modified;
  Ok (mk_meta title author subject keywords creator producer created modified
        (match part, conf with Some p, Some c => level_of (p ++ c) | _, _ => LUnknown end)).
Definition packet_meta (p : option xml) : res meta :=
  match p with
  | None => Ok no_meta
  | Some p => do d <- description p; match d with Some kids => read_meta kids | None => Ok no_meta end
  end.
Definition get_meta (e : env) (doc : option xml) : res (option xml * meta) :=
  do p <- create e doc; do m <- packet_meta p; Ok (p, m).
(** 339-409 removeXMPProperty: the first element of that name. The further descriptions have been merged *)
Definition remove_prop (k : kind) (kids : list xml) : res (list xml) :=
  do o <- find_child (fst (tag k)) (snd (tag k)) kids;
  Ok (match o with Some (l, _, r) => l ++ r | None => kids end).
Fixpoint remove_props (l : list kind) (kids : list xml) : res (list xml) :=
  match l with [] => Ok kids | k :: t => do kids <- remove_prop k kids; remove_props t kids end.
Definition all_kinds : list kind := [KTitle; KAuthor; KSubject; KKeywords; KCreator; KProducer; KCreated; KModified; KPart; KConformance; KRevision].
(** 210-287 addXMPProperty *)
Definition prop (e : env) (k : kind) (s : list Z) : xml :=
  XElem (Ns (Some (fst (tag k)))) (snd (tag k)) []
    (match k with KTitle | KSubject => [list_node e LangAlt s] | KAuthor => [list_node e Seq s] | _ => set_content e s end).
Definition opt_prop (e : env) (k : kind) (s : option (list Z)) : list xml := match s with Some s => [prop e k s] | None => [] end.
(** 126-168 setXMPMetadata *)
Definition level_props (e : env) (l : level) : list xml :=
  match l with
  | LUnknown => []
  | _ => let '(p, c, r) := components l in [prop e KPart p; prop e KConformance c] ++ match r with [] => [] | _ => [prop e KRevision r] end
  end.
Definition props (e : env) (m : meta) : list xml :=
  opt_prop e KTitle (m_title m) ++ opt_prop e KAuthor (m_author m) ++ opt_prop e KSubject (m_subject m) ++
  opt_prop e KKeywords (m_keywords m) ++ opt_prop e KCreator (m_creator m) ++ opt_prop e KProducer (m_producer m) ++
  opt_prop e KCreated (option_map (date_text true) (m_created m)) ++ opt_prop e KModified (option_map (date_text true) (m_modified m)) ++
  level_props e (m_level m).
Definition set_meta (e : env) (m : meta) (kids : list xml) : res (list xml) :=
  do kids <- remove_props all_kinds kids; Ok (kids ++ props e m).
(** 117-124 UpdateOrCreateXMPMetadata *)
Definition update (e : env) (p : option xml) (m : meta) : res xml :=
  on_description (set_meta e m) (match p with Some p => p | None => new_packet end).
