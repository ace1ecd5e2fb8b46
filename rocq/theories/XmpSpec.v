(** What XMP packets say, after ISO 16684-1: properties stand in the descriptions of the packet, as attributes or as elements; the value of a
    property is a text or a list of texts. Nothing of XmpModel but the trees is used. *)
From Coq Require Import String.
From Verif Require Import Base XmpModel.
Local Open Scope Z_scope.

(** No element below is in a default namespace *)
Inductive prefixed : xml -> Prop :=
| PText s : prefixed (XText s)
| PComment : prefixed XComment
| PElem n name attrs kids : n <> Ns None -> Forall prefixed kids -> prefixed (XElem n name attrs kids).

(** The attributes which are no properties *)
Definition technical (a : attr) : Prop :=
  fst a = (Some (bs "xml"), bs "lang") \/ fst a = (Some (bs "rdf"), bs "about") \/ fst a = (Some (bs "rdf"), bs "resource").
(** A text that XML writes as it is *)
Definition plain (s : list Z) : Prop := ~ List.In 38 s /\ ~ List.In 0 s.
Definition text_kids (v : list Z) : list xml := match v with [] => [] | _ => [XText v] end.

(** A description: its children are elements *)
Definition is_description (attrs : list attr) (kids : list xml) (d : xml) : Prop :=
  d = XElem (Ns (Some (bs "rdf"))) (bs "Description") attrs kids /\ Forall (fun x => exists n m a k, x = XElem n m a k) kids /\
  Forall (fun a => fst a <> (Some (bs "rdf"), bs "parseType") /\ plain (snd a)) attrs.

(** The attribute or the element of a description has the name *)
Definition attr_named (pre name : list Z) (a : attr) : Prop := fst a = (Some pre, name).
Definition elem_named (pre name : list Z) (x : xml) : Prop := exists a k, x = XElem (Ns (Some pre)) name a k.

(** The property is not in the description *)
Definition silent (pre name : list Z) (d : xml) : Prop :=
  exists attrs kids, is_description attrs kids d /\ Forall (fun a => ~ attr_named pre name a) attrs /\ Forall (fun x => ~ elem_named pre name x) kids.
(** The description has the property once, with a text *)
Inductive says (pre name v : list Z) : xml -> Prop :=
| SaysAttr d a1 a2 kids : is_description (a1 ++ (Some pre, name, v) :: a2) kids d ->
    Forall (fun a => ~ attr_named pre name a) (a1 ++ a2) -> Forall (fun x => ~ elem_named pre name x) kids -> says pre name v d
| SaysElem d attrs k1 a k2 : is_description attrs (k1 ++ XElem (Ns (Some pre)) name a (text_kids v) :: k2) d -> Forall technical a ->
    Forall (fun a => ~ attr_named pre name a) attrs -> Forall (fun x => ~ elem_named pre name x) (k1 ++ k2) -> says pre name v d.
(** The description has the property once, with a list of which the text is the first item *)
Inductive lists (pre name v : list Z) : xml -> Prop :=
| Lists d attrs k1 a n m b c more k2 : is_description attrs (k1 ++ XElem (Ns (Some pre)) name a
      [XElem n m b (XElem (Ns (Some (bs "rdf"))) (bs "li") c (text_kids v) :: more)] :: k2) d -> Forall technical a -> Forall technical b ->
    Forall technical c -> Forall (fun a => ~ attr_named pre name a) attrs -> Forall (fun x => ~ elem_named pre name x) (k1 ++ k2) -> lists pre name v d.

(** The descriptions of a packet: it has one RDF element, which has nothing but descriptions *)
Definition has_descriptions (ds : list xml) (p : xml) : Prop :=
  prefixed p /\ ds <> [] /\ exists n attrs l r, p = XElem n (bs "xmpmeta") attrs (l ++ XElem (Ns (Some (bs "rdf"))) (bs "RDF") [] ds :: r) /\
    Forall (fun x => ~ elem_named (bs "rdf") (bs "RDF") x) l.
(** The packet says or lists a property in one of its descriptions *)
Definition one_of (P Q : xml -> Prop) (ds : list xml) : Prop := exists d1 d d2, ds = d1 ++ d :: d2 /\ P d /\ Forall Q (d1 ++ d2).
Definition packet_says (pre name v : list Z) (p : xml) : Prop :=
  exists ds, has_descriptions ds p /\ one_of (says pre name v) (silent pre name) ds.
Definition packet_lists (pre name v : list Z) (p : xml) : Prop :=
  exists ds, has_descriptions ds p /\ one_of (lists pre name v) (silent pre name) ds.
Definition packet_silent (pre name : list Z) (p : xml) : Prop := exists ds, has_descriptions ds p /\ Forall (silent pre name) ds.

(** The parts and conformance levels of PDF/A *)
Definition pdfa (l : level) : option (list Z * list Z) :=
  match l with
  | LUnknown => None
  | L1B => Some (bs "1", bs "B") | L1A => Some (bs "1", bs "A") | L2B => Some (bs "2", bs "B") | L2A => Some (bs "2", bs "A") | L2U => Some (bs "2", bs "U")
  | L3B => Some (bs "3", bs "B") | L3A => Some (bs "3", bs "A") | L3U => Some (bs "3", bs "U") | L4E => Some (bs "4", bs "E") | L4F => Some (bs "4", bs "F")
  end.
(** The names of the properties that the library knows *)
Definition known_names : list (list Z * list Z) :=
  [(bs "dc", bs "title"); (bs "dc", bs "creator"); (bs "dc", bs "description"); (bs "pdf", bs "Keywords"); (bs "xmp", bs "CreatorTool");
   (bs "pdf", bs "Producer"); (bs "xmp", bs "CreateDate"); (bs "xmp", bs "ModifyDate"); (bs "pdfaid", bs "part"); (bs "pdfaid", bs "conformance");
   (bs "pdfaid", bs "rev")].
Definition foreign (x : xml) : Prop := Forall (fun n => ~ elem_named (fst n) (snd n) x) known_names.
(** The elements have every known property at most once *)
Definition single (kids : list xml) : Prop := forall n k1 x k2, List.In n known_names -> kids = k1 ++ x :: k2 -> elem_named (fst n) (snd n) x ->
  Forall (fun y => ~ elem_named (fst n) (snd n) y) (k1 ++ k2).
(** The foreign elements of a list, in order *)
Inductive foreigners : list xml -> list xml -> Prop :=
| FNil : foreigners [] []
| FKeep x l l' : foreign x -> foreigners l l' -> foreigners (x :: l) (x :: l')
| FDrop x l l' : ~ foreign x -> foreigners l l' -> foreigners (x :: l) l'.
(** Two packets differ in the children of one description only *)
Definition differ (k k' : list xml) (p p' : xml) : Prop :=
  exists n m a l n1 m1 a1 l1 n2 m2 a2 r1 r,
    p = XElem n m a (l ++ XElem n1 m1 a1 (l1 ++ XElem n2 m2 a2 k :: r1) :: r) /\
    p' = XElem n m a (l ++ XElem n1 m1 a1 (l1 ++ XElem n2 m2 a2 k' :: r1) :: r).
(** Texts that are written as they are, and dates of the years 0 to 9999 with an offset below 60 hours *)
Definition plain_opt (o : option (list Z)) : Prop := match o with Some s => plain s | None => True end.
Definition date_ok (o : option DateModel.date) : Prop :=
  match o with
  | Some d => -62167219200 <= DateModel.d_secs d + 60 * match DateModel.d_off d with Some o => o | None => 0 end <= 253402300799 /\
              match DateModel.d_off d with Some o => Z.abs o <= 3599 | None => True end
  | None => True
  end.
Definition writable (m : meta) : Prop :=
  plain_opt (m_title m) /\ plain_opt (m_author m) /\ plain_opt (m_subject m) /\ plain_opt (m_keywords m) /\ plain_opt (m_creator m) /\
  plain_opt (m_producer m) /\ date_ok (m_created m) /\ date_ok (m_modified m).

(** What a packet has to say for some metadata. The tool is a text, as the dates and the keywords are *)
Definition shows_text (pre name : list Z) (o : option (list Z)) (p : xml) : Prop :=
  match o with Some v => packet_says pre name v p | None => packet_silent pre name p end.
Definition shows_list (pre name : list Z) (o : option (list Z)) (p : xml) : Prop :=
  match o with Some v => packet_lists pre name v p | None => packet_silent pre name p end.
Definition states (m : meta) (p : xml) : Prop :=
  shows_list (bs "dc") (bs "title") (m_title m) p /\ shows_list (bs "dc") (bs "creator") (m_author m) p /\
  shows_list (bs "dc") (bs "description") (m_subject m) p /\ shows_text (bs "pdf") (bs "Keywords") (m_keywords m) p /\
  shows_text (bs "xmp") (bs "CreatorTool") (m_creator m) p /\ shows_text (bs "pdf") (bs "Producer") (m_producer m) p /\
  shows_text (bs "xmp") (bs "CreateDate") (option_map (DateModel.date_text true) (m_created m)) p /\
  shows_text (bs "xmp") (bs "ModifyDate") (option_map (DateModel.date_text true) (m_modified m)) p /\
  shows_text (bs "pdfaid") (bs "part") (option_map fst (pdfa (m_level m))) p /\
  shows_text (bs "pdfaid") (bs "conformance") (option_map snd (pdfa (m_level m))) p.
(** A packet with one description, whose known properties are elements *)
Definition normal (kids : list xml) (p : xml) : Prop :=
  exists d attrs, has_descriptions [d] p /\ is_description attrs kids d /\
    Forall (fun a => Forall (fun n => fst a <> (Some (fst n), snd n)) known_names) attrs.
(** Every known property is said once or not at all *)
Definition clear_packet (p : xml) : Prop :=
  forall n, List.In n known_names ->
    packet_silent (fst n) (snd n) p \/ (exists v, packet_says (fst n) (snd n) v p) \/ (exists v, packet_lists (fst n) (snd n) v p).

(** An element stands somewhere in a tree *)
Inductive inside (x : xml) : xml -> Prop :=
| Here : inside x x
| Below n name attrs kids y : List.In y kids -> inside x y -> inside x (XElem n name attrs kids).
(** ISO 16684-1 8.2.2.4: an alternative of languages is a list Alt whose first item is for x-default; an ordered list is Seq *)
Definition language_alternative (pre name : list Z) (p : xml) : Prop :=
  exists kids, inside (XElem (Ns (Some pre)) name []
    [XElem (Ns (Some (bs "rdf"))) (bs "Alt") [] [XElem (Ns (Some (bs "rdf"))) (bs "li") [(Some (bs "xml"), bs "lang", bs "x-default")] kids]]) p.
Definition ordered (pre name : list Z) (p : xml) : Prop :=
  exists kids, inside (XElem (Ns (Some pre)) name [] [XElem (Ns (Some (bs "rdf"))) (bs "Seq") [] [XElem (Ns (Some (bs "rdf"))) (bs "li") [] kids]]) p.
