(** File specifications and annotations: C127, C128 and C129. *)
From Coq Require Import String QArith Lqa.
From Verif Require Import Base ChainProofs TokModel DictProofs OwnModel OwnProofs ListModel PageModel PageProofs RectModel LinkSpec LinkModel LinkProofs AnnotSpec AnnotModel AnnotProofs AnnotPropLemmas.
Local Open Scope Z_scope.

(** ** C127: file specifications *)

(** A specification made from a path and data: its type, the name that is read back from it, and the file that it embeds.
    [stripped] says whether the directories are left out of the older name as well *)
Theorem C127_made_partial : forall path data (stripped : bool) x, (if stripped then exists b, base_name path b /\ Forall plain b else Forall plain path) ->
  exists d e b, new_file path data stripped x = Ok (ODict d, ODict e, data) /\ base_name path b /\
    dict_get (bs "Type") d = Some (OName (bs "Filespec")) /\
    (exists f, dict_get (bs "EF") d = Some (ODict f) /\ dict_get (bs "F") f = Some (ORef (fst x) (snd x))) /\
    dict_get (bs "Type") e = Some (OName (bs "EmbeddedFile")) /\
    (exists q, dict_get (bs "Params") e = Some (ODict q) /\ dict_get (bs "Size") q = Some (ONum (Z.of_nat (length data)))) /\
    forall h r, h r = Some (ODict d) -> file_name h r true = Ok b /\ file_name h r false = Ok (if stripped then b else path).
Proof. exact made_file. Qed.
Print Assumptions C127_made_partial.
Example C127_made_case : new_file (bs "/tmp/notes_1") (bs "abc") true (9, 0) =
  Ok (ODict [(bs "EF", ODict [(bs "F", ORef 9 0)]); (bs "F", OStr false (bs "notes_1")); (bs "Type", OName (bs "Filespec")); (bs "UF", OStr false (bs "notes_1"))],
      ODict [(bs "Params", ODict [(bs "Size", ONum 3)]); (bs "Type", OName (bs "EmbeddedFile"))], bs "abc").
Proof. vm_compute. reflexivity. Qed.
(** There is one last part of a path only *)
Theorem C127_base : forall path, base_name path (strip_path path true) /\ forall b, base_name path b -> b = strip_path path true.
Proof. intro path. split; [apply strip_base|]. intros b B. eapply base_unique; [exact B|apply strip_base]. Qed.
Print Assumptions C127_base.
Example C127_base_case : strip_path (bs "/home/a.b/c.pdf") true = bs "c.pdf" /\ strip_path (bs "a/") true = [] /\ strip_path (bs "c") true = bs "c".
Proof. vm_compute. auto. Qed.
(** A name with any other byte than letters, digits, underscores and separators, such as a dot, is undefined behaviour *)
Theorem C127_bytes_refuted : forall path data x, Exists (fun c => ~ plain c /\ ~ separator c) path -> new_file path data false x = UB.
Proof. intros path data x E. unfold new_file. cbn [strip_path]. rewrite file_text_other by exact E. reflexivity. Qed.
Print Assumptions C127_bytes_refuted.
Example C127_bytes_case : new_file (bs "report.pdf") (bs "abc") true (9, 0) = UB.
Proof. vm_compute. reflexivity. Qed.
(** A path that is not stripped is never the path that the specification names: each separator is written as a backslash and a separator *)
Theorem C127_path_refuted : forall path data x, Forall (fun c => plain c \/ c = 47) path -> List.In 47 path ->
  exists d e t, new_file path data false x = Ok (ODict d, e, data) /\ dict_get (bs "F") d = Some (OStr false t) /\
    forall l, parts t l -> ~ path_parts path l.
Proof. exact path_wrong. Qed.
Print Assumptions C127_path_refuted.
Example C127_path_case : file_text (bs "a/b") = Ok (bs "a\\/b") /\ parts (bs "a\\/b") [bs "a\"; bs "b"] /\ path_parts (bs "a/b") [bs "a"; bs "b"].
Proof.
  split; [vm_compute; reflexivity|]. split.
  - change (parts (97 :: 92 :: 92 :: 47 :: 98 :: []) ((97 :: 92 :: []) :: (98 :: []) :: [])). apply PByte; [lia|lia|]. apply PEsc, PSlash, PByte; [lia|lia|]. apply PEnd.
  - change (path_parts (97 :: 47 :: 98 :: []) ((97 :: []) :: (98 :: []) :: [])). apply QByte; [lia|]. apply QSlash, QByte; [lia|]. apply QEnd.
Qed.
(** Different names get the same specification *)
Theorem C127_same_refuted : file_text (bs "a:b") = file_text (bs "a/b") /\ file_text (bs "a\b") = file_text (bs "a/b").
Proof. vm_compute. auto. Qed.
Print Assumptions C127_same_refuted.

(** ** C128: the entries of annotations *)

(** A new annotation *)
Theorem C128_new : forall page name q, exists d, new_annot page name q = ODict d /\ DictProofs.sorted d /\
  dict_get (bs "Type") d = Some (OName (bs "Annot")) /\ dict_get (bs "Subtype") d = Some (OName name) /\
  dict_get (bs "P") d = Some (ORef (fst page) (snd page)) /\ absent d (bs "Parent") /\ absent d (bs "AP") /\
  (forall h, flags_are h d 4) /\
  exists l, dict_get (bs "Rect") d = Some (OArr l) /\ rectangle l (val (dl q)) (val (db q)) (val (dl q) + val (dw q))%Q (val (db q) + val (dh q))%Q.
Proof. exact made_annot. Qed.
Print Assumptions C128_new.
Example C128_new_case : new_annot (4, 0) (bs "Link") (mk_drect (1, 0%nat) (25, 1%nat) (3, 0%nat) (4, 0%nat)) = ODict
  [(bs "F", ONum 4); (bs "P", ORef 4 0); (bs "Rect", OArr [OReal 1 0; OReal 25 1; OReal 4 0; OReal 65 1]); (bs "Subtype", OName (bs "Link")); (bs "Type", OName (bs "Annot"))].
Proof. vm_compute. reflexivity. Qed.
(** The rectangle read is the one that the standard gives the array, whichever corners it has *)
Theorem C128_rect_read : forall h r d l a b c e, h r = Some (ODict d) -> entry_is h d (bs "Rect") (OArr l) -> rectangle l a b c e ->
  exists q, annot_rect h r = Ok q /\ ends a c (rl q) (rl q + rw q)%Q /\ ends b e (rb q) (rb q + rh q)%Q.
Proof. exact rect_got. Qed.
Print Assumptions C128_rect_read.
(** What is set is in the document, and is read back; nothing else changes *)
Theorem C128_rect : forall h r d q, h r = Some (ODict d) -> exists h' d' l, set_rect h r q = Ok h' /\ h' r = Some (ODict d') /\
  entry_is h' d' (bs "Rect") (OArr l) /\ rectangle l (val (dl q)) (val (db q)) (val (dl q) + val (dw q))%Q (val (db q) + val (dh q))%Q /\
  only [bs "Rect"] d d' /\ only_at r h h' /\
  ((0 <= val (dw q))%Q -> (0 <= val (dh q))%Q -> exists q', annot_rect h' r = Ok q' /\
    (rl q' == val (dl q) /\ rb q' == val (db q) /\ rw q' == val (dw q) /\ rh q' == val (dh q))%Q).
Proof. exact rect_kept. Qed.
Print Assumptions C128_rect.
Example C128_rect_case : exists h q, set_rect (PageModel.set (1, 0) (Some (ODict [])) (fun _ => None)) (1, 0) (mk_drect (5, 0%nat) (5, 0%nat) (-3, 0%nat) (4, 0%nat)) = Ok h /\
  annot_rect h (1, 0) = Ok q /\ (rl q == 2 /\ rb q == 5 /\ rw q == 3 /\ rh q == 4)%Q.
Proof. eexists _, _. split; [reflexivity|]. split; [vm_compute; reflexivity|]. repeat split. Qed.
Theorem C128_flags : forall h r d z, h r = Some (ODict d) -> 0 <= z < 2 ^ 32 -> exists h' d', set_flags h r z = Ok h' /\ h' r = Some (ODict d') /\ flags_are h' d' z /\
  only [bs "F"] d d' /\ only_at r h h' /\ forall fuel, get_flags (S fuel) h' r = Ok z.
Proof. exact flags_set. Qed.
Print Assumptions C128_flags.
(** The flags and texts of an annotation are read, unless a missing one is looked up in a parent *)
Theorem C128_read_partial : forall fuel h r d, h r = Some (ODict d) ->
  (forall z, flags_are h d z -> (absent d (bs "F") -> absent d (bs "Parent")) -> get_flags (S fuel) h r = Ok z) /\
  (forall k s, text_is h d k s -> (absent d k -> absent d (bs "Parent")) -> get_string (S fuel) h r k = Ok s).
Proof. intros fuel h r d R. split; [intros z; apply flags_read, R|intros k s; apply text_read, R]. Qed.
Print Assumptions C128_read_partial.
Example C128_read_case : exists h, set_flags (PageModel.set (1, 0) (Some (ODict [])) (fun _ => None)) (1, 0) 68 = Ok h /\ get_flags 3 h (1, 0) = Ok 68 /\
  get_string 3 h (1, 0) (bs "T") = Ok None.
Proof. eexists. split; [reflexivity|]. split; vm_compute; reflexivity. Qed.
(** The title and the contents *)
Theorem C128_text : forall h r d k s, h r = Some (ODict d) -> DictProofs.sorted d -> k <> bs "Parent" -> exists h' d', set_string h r k s = Ok h' /\
  h' r = Some (ODict d') /\ text_is h' d' k s /\ only [k] d d' /\ only_at r h h' /\ DictProofs.sorted d'.
Proof. exact text_set. Qed.
Print Assumptions C128_text.
Example C128_text_case : exists h1 h2, set_string (PageModel.set (1, 0) (Some (ODict [])) (fun _ => None)) (1, 0) (bs "T") (Some (bs "x")) = Ok h1 /\
  get_string 2 h1 (1, 0) (bs "T") = Ok (Some (bs "x")) /\ set_string h1 (1, 0) (bs "T") None = Ok h2 /\ get_string 2 h2 (1, 0) (bs "T") = Ok None.
Proof. eexists _, _. split; [reflexivity|]. split; [reflexivity|]. split; reflexivity. Qed.
(** The border and whether a popup is open *)
Theorem C128_border : forall h r d x y w dash, h r = Some (ODict d) -> exists h' d' l, set_border h r x y w dash = Ok h' /\ h' r = Some (ODict d') /\
  entry_is h' d' (bs "Border") (OArr l) /\ only [bs "Border"] d d' /\ only_at r h h' /\
  exists a b c, number_is a (val x) /\ number_is b (val y) /\ number_is c (val w) /\ (l = [a; b; c] /\ dash = [] \/ l = [a; b; c; OArr dash] /\ dash <> []).
Proof. exact border_set. Qed.
Print Assumptions C128_border.
Theorem C128_open : forall h r d b, h r = Some (ODict d) -> DictProofs.sorted d -> exists h' d', set_open h r b = Ok h' /\ h' r = Some (ODict d') /\
  only [bs "Open"] d d' /\ only_at r h h' /\ dict_get (bs "Open") d' = match b with Some b => Some (OBool b) | None => None end /\
  get_open h' r = Ok (match b with Some b => b | None => false end).
Proof. exact open_set. Qed.
Print Assumptions C128_open.
Example C128_open_case : exists h1 h2, set_open (PageModel.set (1, 0) (Some (ODict [])) (fun _ => None)) (1, 0) (Some true) = Ok h1 /\ get_open h1 (1, 0) = Ok true /\
  set_open h1 (1, 0) None = Ok h2 /\ get_open h2 (1, 0) = Ok false /\
  set_border h1 (1, 0) (0, 0%nat) (0, 0%nat) (15, 1%nat) [] = Ok (PageModel.set (1, 0) (Some (ODict [(bs "Border", OArr [OReal 0 0; OReal 0 0; OReal 15 1]); (bs "Open", OBool true)])) h1).
Proof. eexists _, _. split; [reflexivity|]. split; [reflexivity|]. split; [reflexivity|]. split; reflexivity. Qed.
(** The flags and the title of an annotation that has none are those of its parent, such as the annotation that a popup belongs to *)
Definition popup : heap := fun r => if ref_eqb r (1, 0) then Some (ODict [(bs "F", ONum 2); (bs "T", OStr false (bs "me"))])
  else if ref_eqb r (2, 0) then Some (ODict [(bs "Parent", ORef 1 0)]) else None.
Theorem C128_parent_refuted : exists d, popup (2, 0) = Some (ODict d) /\ flags_are popup d 0 /\ text_is popup d (bs "T") None /\
  get_flags 5 popup (2, 0) = Ok 2 /\ get_string 5 popup (2, 0) (bs "T") = Ok (Some (bs "me")).
Proof. eexists. split; [reflexivity|]. split; [apply FNone; reflexivity|]. split; [apply TNone; reflexivity|]. split; vm_compute; reflexivity. Qed.
Print Assumptions C128_parent_refuted.

(** ** C129: appearances *)

(** A form set as an appearance is that appearance; the others stay, and so does all that appearances are not kept in. The first state
    set is the one that is shown *)
Theorem C129_set_partial : forall h r d x a st, h r = Some (ODict d) -> NoDup (kept_in h r d) -> exists h' d', set_appearance h r x a st = Ok h' /\
  appearance h' r (ap_name a) st x /\
  (forall b st' y, b <> a \/ st <> [] /\ st' <> [] /\ st' <> st -> appearance h r (ap_name b) st' y -> appearance h' r (ap_name b) st' y) /\
  (forall q, ~ List.In q (kept_in h r d) -> h' q = h q) /\ h' r = Some (ODict d') /\ only [bs "AP"; bs "AS"] d d' /\
  dict_get (bs "AS") d' = match st, dict_get (bs "AS") d with _ :: _, None => Some (OName st) | _, v => v end.
Proof. exact set_appearance_ok. Qed.
Print Assumptions C129_set_partial.
(** An appearance is found *)
Theorem C129_get : forall h r a st x v, appearance h r (ap_name a) st x -> h x = Some v -> get_appearance h r a st = Ok (Some (At x)).
Proof. exact get_appearance_ok. Qed.
Print Assumptions C129_get.
(** The list of appearances: all those that are streams, and no others *)
Theorem C129_list : forall h st r d ad, (forall y, st y = true -> h y <> None) -> h r = Some (ODict d) -> entry_is h d (bs "AP") (ODict ad) -> DictProofs.sorted ad ->
  (forall b sd, entry_is h ad (ap_name b) (ODict sd) -> DictProofs.sorted sd /\ absent sd []) ->
  exists l, get_appearances h st r = Ok l /\ forall m a s, List.In (m, a, s) l <->
    exists y, m = At y /\ st y = true /\ appearance h r (ap_name a) s y /\
      (s <> [] -> forall z, dict_get (ap_name a) ad = Some (to_ref z) -> st z = false).
Proof. exact listed. Qed.
Print Assumptions C129_list.
Definition boxes : heap := fun r => if ref_eqb r (1, 0) then Some (ODict []) else if ref_eqb r (5, 0) then Some (ODict [])
  else if ref_eqb r (6, 0) then Some (ODict []) else if ref_eqb r (7, 0) then Some (ODict []) else None.
Definition is_form (r : ref) : bool := ref_eqb r (5, 0) || ref_eqb r (6, 0) || ref_eqb r (7, 0).
Example C129_case : exists h1 h2 h3, set_appearance boxes (1, 0) (5, 0) Normal (bs "Yes") = Ok h1 /\ set_appearance h1 (1, 0) (6, 0) Normal (bs "Off") = Ok h2 /\
  set_appearance h2 (1, 0) (7, 0) Down [] = Ok h3 /\
  h3 (1, 0) = Some (ODict [(bs "AP", ODict [(bs "D", ORef 7 0); (bs "N", ODict [(bs "Off", ORef 6 0); (bs "Yes", ORef 5 0)])]); (bs "AS", OName (bs "Yes"))]) /\
  get_appearance h3 (1, 0) Normal (bs "Off") = Ok (Some (At (6, 0))) /\
  get_appearances h3 is_form (1, 0) = Ok [(At (7, 0), Down, []); (At (6, 0), Normal, bs "Off"); (At (5, 0), Normal, bs "Yes")].
Proof. eexists _, _, _. split; [reflexivity|]. split; [reflexivity|]. split; [reflexivity|]. split; [reflexivity|]. split; reflexivity. Qed.
(** A state set where there is one form for all states goes into the dictionary of this form, and is not listed *)
Theorem C129_form_refuted : exists h1 h2 d l, set_appearance boxes (1, 0) (5, 0) Normal [] = Ok h1 /\ h1 (1, 0) = Some (ODict d) /\ NoDup (kept_in h1 (1, 0) d) /\
  set_appearance h1 (1, 0) (6, 0) Normal (bs "On") = Ok h2 /\ h2 (5, 0) = Some (ODict [(bs "On", ORef 6 0)]) /\
  get_appearances h2 is_form (1, 0) = Ok l /\ ~ List.In (At (6, 0), Normal, bs "On") l.
Proof.
  eexists _, _, _, _. split; [reflexivity|]. split; [reflexivity|]. split; [change (NoDup [(1, 0); (5, 0)]); repeat constructor; cbn; intuition discriminate|]. split; [reflexivity|]. split; [reflexivity|].
  split; [reflexivity|]. intros [E|[]]. discriminate E.
Qed.
Print Assumptions C129_form_refuted.
