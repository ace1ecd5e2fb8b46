(** Maps between character codes and code points: src/pdfmm/base/PdfCharCodeMap.cpp, PdfEncodingCommon.cpp, PdfEncodingMap.cpp and the loops of
    PdfEncoding.cpp which use them. Text is a list of code points: utf8::next and utf8::append are left out. The random order in
    reviseCPMap is a parameter. *)
From Coq Require Import Permutation.
From Verif Require Import Base.
Local Open Scope Z_scope.

(** PdfEncodingCommon.h: PdfCharCode, the number (unsigned) and the count of bytes (unsigned char) *)
Record code := mk_code { c_num : Z; c_size : Z }.
Definition no_code : code := mk_code 0 0.
(** PdfEncodingCommon.cpp:38-42 AppendTo; a shift by 32 or more is undefined *)
Fixpoint append_bytes (n : Z) (i : nat) : list Z :=
  match i with O => [] | S j => Z.shiftr n (8 * Z.of_nat j) mod 256 :: append_bytes n j end.
Definition append_code (c : code) (s : list Z) : res (list Z) :=
  if 4 <? c_size c then UB else Ok (s ++ append_bytes (c_num c) (Z.to_nat (c_size c))).

(** PdfEncodingLimits. 121-124: the default has the sizes 255 and 0, the codes 2^32-1 and 0 (their sizes are computed by GetCharCodeSize,
    which is undefined for 0; they are not used) *)
Record limits := mk_limits { l_min : Z; l_max : Z; l_first : code; l_last : code }.
Definition default_limits : limits := mk_limits 255 0 (mk_code 4294967295 4) (mk_code 0 1).

(** std::map<PdfCharCode, vector<codepoint>>: sorted by operator<, PdfEncodingCommon.cpp:28-31, which compares the numbers only *)
Definition unit_map := list (code * list Z).
Fixpoint find_code (m : unit_map) (c : code) : option (code * list Z) :=
  match m with
  | [] => None
  | (k, v) :: r => if c_num k =? c_num c then Some (k, v) else find_code r c
  end.
(** m[c] = v: an existing key stays *)
Fixpoint put_code (m : unit_map) (c : code) (v : list Z) : unit_map :=
  match m with
  | [] => [(c, v)]
  | (k, w) :: r => if c_num c <? c_num k then (c, v) :: m else if c_num k <? c_num c then (k, w) :: put_code r c v else (k, v) :: r
  end.

(** PdfCharCodeMap.h:81-88 CPMapNode *)
Inductive node := Nil | Node (cp : Z) (cd : code) (lig left right : node).
(** PdfCharCodeMap.cpp:199-210 findNode; what is used of the found node *)
Fixpoint find_node (t : node) (cp : Z) : option (code * node) :=
  match t with
  | Nil => None
  | Node x c l a b => if x =? cp then Some (c, l) else if cp <? x then find_node a cp else find_node b cp
  end.
(** 258-273 findOrAddNode; [f] is what is done with the found node *)
Fixpoint update_node (t : node) (cp : Z) (f : code -> node -> code * node) : node :=
  match t with
  | Nil => let (c, l) := f no_code Nil in Node cp c l Nil Nil
  | Node x c l a b =>
    if x =? cp then (let (c, l) := f c l in Node x c l a b)
    else if cp <? x then Node x c l (update_node a cp f) b else Node x c l a (update_node b cp f)
  end.
(** 235-252: the path of one mapping. An empty path is a failed invariant *)
Fixpoint add_path (t : node) (cps : list Z) (cd : code) : node :=
  match cps with
  | [] => t
  | [cp] => update_node t cp (fun _ l => (cd, l))
  | cp :: r => update_node t cp (fun c l => (c, add_path l r cd))
  end.
Definition build (pairs : unit_map) : node := fold_left (fun t p => add_path t (snd p) (fst p)) pairs Nil.

(** PdfCharCodeMap *)
Record char_map := mk_map { m_limits : limits; m_map : unit_map; m_dirty : bool; m_head : node }.
Definition new_map : char_map := mk_map default_limits [] false Nil.
(** 54-61 PushMapping and 141-159 pushMapping *)
Definition push (s : char_map) (c : code) (cps : list Z) : res char_map :=
  match cps with
  | [] => Err EInvalidHandle
  | _ =>
    if c_size c =? 0 then Err EInvalidHandle
    else
      let l := m_limits s in
      let l := mk_limits (if c_size c <? l_min l then c_size c else l_min l) (if l_max l <? c_size c then c_size c else l_max l)
                         (if c_num c <? c_num (l_first l) then c else l_first l) (if c_num (l_last l) <? c_num c then c else l_last l) in
      Ok (mk_map l (put_code (m_map s) c cps) true (m_head s))
  end.
(** 212-256 reviseCPMap; [shuffle] is a permutation *)
Definition revise (shuffle : unit_map -> unit_map) (s : char_map) : char_map :=
  if m_dirty s then mk_map (m_limits s) (m_map s) false (build (shuffle (m_map s))) else s.
(** 69-80 TryGetCodePoints *)
Definition code_points (s : char_map) (c : code) : option (list Z) := option_map snd (find_code (m_map s) c).
(** 161-197 tryFindNextCharacterId. [None]: false; with the text that is left. The text is not empty (171, the invariant 164) *)
Fixpoint find_next (t : node) (text : list Z) : option (code * list Z) :=
  match text with
  | [] => None
  | cp :: rest =>
    match find_node t cp with
    | None => None
    | Some (c, lig) =>
      match (match rest with [] => None | _ => find_next lig rest end) with
      | Some x => Some x
      | None => if c_size c =? 0 then None else Some (c, rest)
      end
    end
  end.
(** 82-86 TryGetNextCharCode, 88-125 and 127-139 TryGetCharCode; the map is revised before *)
Definition next_code (shuffle : unit_map -> unit_map) (s : char_map) (text : list Z) : char_map * option (code * list Z) :=
  let s := revise shuffle s in (s, find_next (m_head s) text).
Fixpoint find_all (t : node) (text : list Z) : option code :=
  match text with
  | [] => None
  | [cp] => match find_node t cp with None => None | Some (c, _) => if c_size c =? 0 then None else Some c end
  | cp :: r => match find_node t cp with None => None | Some (_, l) => find_all l r end
  end.
Definition code_of_text (shuffle : unit_map -> unit_map) (s : char_map) (text : list Z) : char_map * option code :=
  let s := revise shuffle s in (s, find_all (m_head s) text).
Definition code_of_point (shuffle : unit_map -> unit_map) (s : char_map) (cp : Z) : char_map * option code :=
  let s := revise shuffle s in (s, option_map fst (find_node (m_head s) cp)).

(** ** PdfEncodingMap.cpp:202-238 tryGetNextCodePoints with the limits of the map and a function for tryGetCodePoints *)
Fixpoint next_points (look : code -> option (list Z)) (l : limits) (bytes : list Z) (num i : Z) : option (list Z * list Z) :=
  match bytes with
  | [] => None
  | b :: rest =>
    if l_max l <? i then None
    else let num := Z.lor (Z.shiftl num 8 mod 4294967296) b in
         if i <? l_min l then next_points look l rest num ((i + 1) mod 256)
         else match look (mk_code num i) with
              | Some cps => Some (cps, rest)
              | None => next_points look l rest num ((i + 1) mod 256)
              end
  end.
(** PdfEncoding.cpp:526-542 fetchFallbackCharCode, for a text that is not empty *)
Fixpoint fallback (l : limits) (bytes : list Z) (num i : Z) : code * list Z :=
  match bytes with
  | [] => (mk_code num i, [])
  | b :: rest => if i =? l_min l then (mk_code num i, bytes) else fallback l rest (Z.lor (Z.shiftl num 8 mod 4294967296) b) ((i + 1) mod 256)
  end.
(** utf8::internal::is_code_point_valid; PdfEncoding.cpp:205-213: other code points and 0 are dropped *)
Definition point_valid (cp : Z) : bool := (cp <=? 1114111) && negb ((55296 <=? cp) && (cp <=? 57343)).
Definition kept (cp : Z) : bool := negb (cp =? 0) && point_valid cp.
(** PdfEncoding.cpp:184-217 tryConvertEncodedToUtf8: the code points that are appended and the result *)
Fixpoint decode (fuel : nat) (look : code -> option (list Z)) (l : limits) (bytes : list Z) : res (list Z * bool) :=
  match bytes with
  | [] => Ok ([], true)
  | b :: r =>
    match fuel with
    | O => Fuel
    | S f =>
      match next_points look l bytes 0 1 with
      | Some (cps, rest) => do x <- decode f look l rest; Ok (filter kept cps ++ fst x, snd x)
      | None => let (c, rest) := fallback l r b 1 in do x <- decode f look l rest; Ok (filter kept [c_num c] ++ fst x, false)
      end
    end
  end.
(** PdfEncoding.cpp:102-113: a loaded font. [None]: false *)
Fixpoint encode (fuel : nat) (shuffle : nat -> unit_map -> unit_map) (s : char_map) (text : list Z) (acc : list Z) : res (char_map * option (list Z)) :=
  match text with
  | [] => Ok (s, Some acc)
  | _ =>
    match fuel with
    | O => Fuel
    | S f =>
      let (s, r) := next_code (shuffle f) s text in
      match r with
      | None => Ok (s, None)
      | Some (c, rest) => do acc <- append_code c acc; encode f shuffle s rest acc
      end
    end
  end.
(** PdfCMapEncoding.cpp:41-45: the map is moved (PdfCharCodeMap.cpp:45-52, utls::move leaves the default) before the limits, a reference
    into it, are copied *)
Definition cmap_encoding (s : char_map) : char_map * limits := (s, default_limits).
