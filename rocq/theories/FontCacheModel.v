(** The fonts of a document: src/pdfmm/base/PdfFontManager.cpp, without Windows; PdfFontFactory.cpp:26-75, 174-208 for what can fail.
    A font is given by the number of its object and by what is compared. *)
From Coq Require Import String.
From Verif Require Import Base.
Local Open Scope Z_scope.

(** PdfFontMetrics: GetFontName, GetBaseFontName and GetStyle, and whether createFontForType knows the type of file (PdfFontFactory.cpp:44-75) *)
Record metrics := mk_metrics { mt_name : list Z; mt_base : list Z; mt_style : Z; mt_known : bool }.
(** PdfFont: the number of its object, metrics, GetName, the standard font or 0, the id of the encoding and the flags it is made with *)
Record font := mk_font { fo_id : Z; fo_metrics : metrics; fo_name : list Z; fo_std : Z; fo_enc : Z; fo_flags : Z }.
(** PdfFontManager.h Descriptor *)
Record descr := mk_descr { ds_name : list Z; ds_std : Z; ds_enc : Z; ds_style : Z }.
(** m_importedFonts, m_fonts with IsLoaded, m_currentPrefix; the next number of an object in the document *)
Record cache := mk_cache { imported : list (descr * list font); owned : list (Z * (bool * font)); prefix : list Z; next : Z }.
(** What is outside: PdfFont::ExtractBaseName with the style (144-155), IsStandard14Font with and without alternatives, what is found
    for a name and a style (getFontData and FromBuffer), the names that new fonts get, the metrics of standard fonts, the fonts that
    TryCreateFromObject makes; and whether a table of hashes comes to compare two keys: they are in the same bucket, or have the same
    hash, depending on the library. *)
Record env := mk_env { extract : list Z -> list Z * Z; std14 : bool -> list Z -> option Z; data : list Z -> Z -> option metrics; new_name : metrics -> Z -> list Z;
  std_metrics : Z -> metrics; made : Z -> option font; near : descr -> descr -> bool }.

(** 474-477 EqualElement: the standard font is not compared *)
Definition equal_elem (a b : descr) : bool := (ds_enc a =? ds_enc b) && (ds_style a =? ds_style b) && beq (ds_name a) (ds_name b).
Definition hit (e : env) (d k : descr) : bool := near e d k && equal_elem d k.
(** m_importedFonts.find *)
Fixpoint lookup (e : env) (d : descr) (m : list (descr * list font)) : option (list font) :=
  match m with [] => None | (k, l) :: t => if hit e d k then Some l else lookup e d t end.
(** m_importedFonts[d] and a change of what it gives *)
Fixpoint put (e : env) (d : descr) (v : list font) (m : list (descr * list font)) : list (descr * list font) :=
  match m with [] => [(d, v)] | (k, l) :: t => if hit e d k then (k, v) :: t else (k, l) :: put e d v t end.
Fixpoint owner (n : Z) (l : list (Z * (bool * font))) : option (bool * font) :=
  match l with [] => None | (k, v) :: t => if k =? n then Some v else owner n t end.

(** 512-549 matchFont; the assertion is nothing *)
Definition match_font (exact : bool) (name : list Z) (l : list font) : res (option font) :=
  if exact then Ok (find (fun f => beq (mt_name (fo_metrics f)) name) l)
  else
    match l with
    | [] => UB
    | [f] => Ok (Some f)
    | f :: _ => Ok (Some (match find (fun f => beq (fo_name f) (mt_base (fo_metrics f))) l with Some g => g | None => f end))
    end.
(** 85-90 addImported. If there were a font of that number the new one would be destroyed and its pointer kept: undefined *)
Definition add_imported (e : env) (d : descr) (l : list font) (f : font) (s : cache) : res (option font) * cache :=
  match owner (fo_id f) (owned s) with
  | Some _ => (UB, s)
  | None => (Ok (Some f), mk_cache (put e d (l ++ [f]) (imported s)) (owned s ++ [(fo_id f, (false, f))]) (prefix s) (next s))
  end.
Definition found (l : option (list font)) : list font := match l with Some l => l | None => [] end.
(** 64-71 AddImported of a font that has just been made *)
Definition add_font (e : env) (m : metrics) (name : list Z) (enc flags : Z) (s : cache) : res (option font) * cache :=
  let f := mk_font (next s) m name 0 enc flags in
  let d := mk_descr (mt_base m) 0 enc (mt_style m) in
  add_imported e d (found (lookup e d (imported s))) f (mk_cache (imported s) (owned s) (prefix s) (next s + 1)).
(** 412-430 getImportedFont with metrics. The entry is made before the font is. A font that does not match is destroyed,
    its object stays. *)
Definition import_metrics (e : env) (m : metrics) (enc flags : Z) (matcher : list font -> res (option font)) (s : cache) : res (option font) * cache :=
  let d := mk_descr (mt_base m) 0 enc (mt_style m) in
  match lookup e d (imported s) with
  | Some (f :: l) => (matcher (f :: l), s)
  | _ =>
    let s1 := mk_cache (put e d [] (imported s)) (owned s) (prefix s) (next s) in
    if mt_known m then
      let f := mk_font (next s) m (new_name e m flags) 0 enc flags in
      let s2 := mk_cache (imported s1) (owned s1) (prefix s1) (next s1 + 1) in
      match matcher [f] with
      | Ok (Some _) => add_imported e d [] f s2
      | r => (r, s2)
      end
    else (Err EUnsupportedFontFormat, s1)
  end.
(** 126-143 GetStandard14Font *)
Definition get_std (e : env) (std enc flags : Z) (s : cache) : res (option font) * cache :=
  let d := mk_descr [] std enc 0 in
  match lookup e d (imported s) with
  | Some (f :: _) => (Ok (Some f), s)
  | _ =>
    let m := std_metrics e std in
    add_imported e d [] (mk_font (next s) m (new_name e m flags) std enc flags) (mk_cache (imported s) (owned s) (prefix s) (next s + 1))
  end.
(** PdfFontSearchParams: the style, whether the name must be exact, and AutoSelect: none, standard fonts, also by their alternative names *)
Record search := mk_search { sp_style : Z; sp_exact : bool; sp_auto : option bool }.
(** 110-124 GetFont with 145-180; the base name has been cleaned of the style *)
Definition get_font (e : env) (name : list Z) (p : search) (enc flags : Z) (s : cache) : res (option font) * cache :=
  match (match sp_auto p with Some alt => std14 e alt name | None => None end) with
  | Some std => get_std e std enc flags s
  | None =>
    let base := fst (extract e name) in
    let style := Z.lor (sp_style p) (snd (extract e name)) in
    match lookup e (mk_descr base 0 enc style) (imported s) with
    | Some l => (match_font (sp_exact p) name l, s)
    | None =>
      match data e base style with
      | None => (Ok None, s)
      | Some m => import_metrics e m enc flags (match_font (sp_exact p) name) s
      end
    end
  end.
(** 267-302 GetFont of a face, whose name is not empty: the metrics are those of the face *)
Definition get_face (e : env) (m : metrics) (style enc flags : Z) (s : cache) : res (option font) * cache :=
  match lookup e (mk_descr (fst (extract e (mt_name m))) 0 enc style) (imported s) with
  | Some l => (match_font false (mt_name m) l, s)
  | None => import_metrics e m enc flags (fun l => match l with f :: _ => Ok (Some f) | [] => UB end) s
  end.
(** 92-113 GetLoadedFont of an indirect object of the document *)
Definition get_loaded (e : env) (n : Z) (s : cache) : res (option font) * cache :=
  match owner n (owned s) with
  | Some (true, f) => (Ok (Some f), s)
  | Some (false, _) => (Err EInvalidFontFile, s)
  | None => match made e n with None => (Ok None, s) | Some f => (Ok (Some f), mk_cache (imported s) (owned s ++ [(n, (true, f))]) (prefix s) (next s)) end
  end.
(** 304-316 EmbedFonts *)
Definition embed (s : cache) : cache := mk_cache [] (owned s) (prefix s) (next s).
(** 73-83 GenerateSubsetPrefix *)
Fixpoint bump (n : nat) (l : list Z) : list Z :=
  match n, l with
  | S n', c :: t => if c + 1 <=? 90 then (c + 1) :: t else 65 :: bump n' t
  | _, _ => l
  end.
Definition generate (s : cache) : list Z * cache := let p := bump 6 (prefix s) in (p, mk_cache (imported s) (owned s) p (next s)).
(** 49-53 *)
Definition new_cache (n : Z) : cache := mk_cache [] [] (bs "AAAAAA+") n.

(** Calls; [QObject]: another object is made in the document *)
Inductive query := QFont (name : list Z) (p : search) (enc flags : Z) | QStd (std enc flags : Z) | QFace (m : metrics) (style enc flags : Z) | QAdd (m : metrics) (name : list Z) (enc flags : Z)
| QLoaded (n : Z) | QEmbed | QPrefix | QObject.
Definition ask (e : env) (q : query) (s : cache) : res (option font) * cache :=
  match q with
  | QFont name p enc flags => get_font e name p enc flags s
  | QStd std enc flags => get_std e std enc flags s
  | QFace m style enc flags => get_face e m style enc flags s
  | QAdd m name enc flags => add_font e m name enc flags s
  | QLoaded n => get_loaded e n s
  | QEmbed => (Ok None, embed s)
  | QPrefix => (Ok None, snd (generate s))
  | QObject => (Ok None, mk_cache (imported s) (owned s) (prefix s) (next s + 1))
  end.
(** The state after calls, whatever they answer *)
Fixpoint after (e : env) (qs : list query) (s : cache) : cache := match qs with [] => s | q :: t => after e t (snd (ask e q s)) end.
