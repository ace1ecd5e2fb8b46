(** Properties of form fields. *)
From Coq Require Import String.
From Verif Require Import Base TokModel DictProofs OwnModel OwnSpec OwnProofs ListModel PageModel FieldModel FieldSpec FieldProofs FieldPropLemmas.
Local Open Scope Z_scope.

(** ** C113: flags and kinds *)

(** The numbers of the flags are those of ISO 32000-1 *)
Theorem C113_codes f : code_of f = 2 ^ (position f - 1). Proof. apply flag_codes. Qed.
Print Assumptions C113_codes.
(** Setting a flag of a field sets its bit and no other in the flags that the field has or inherits; the flags become its own.
    No other entry and no other object is changed, and every flag is read back. *)
Theorem C113_set h r d z f on : at_dict h r d -> flags_in h d z ->
  exists n h' d' z', (forall fuel, (n <= fuel)%nat -> set_flag fuel h r (code_of f) on = Ok h' /\ forall g def, get_flag fuel h' r (code_of g) def = Ok (has_flag z' g)) /\
    changed_only h h' r /\ at_dict h' r d' /\ same_but [bs "Ff"] d d' /\ get_key (bs "Ff") d' = Some (ONum z') /\
    forall i, 0 <= i -> Z.testbit z' i = if i =? position f - 1 then on else Z.testbit z i.
Proof. apply flag_set. Qed.
Print Assumptions C113_set.
(** A flag is read from the nearest /Ff; without one it has the default of the caller *)
Theorem C113_get h r d z f def : at_dict h r d -> flags_in h d z -> exists n, forall fuel, (n <= fuel)%nat ->
  get_flag fuel h r (code_of f) def = Ok (has_flag z f) \/ (inherits h (bs "Ff") d None /\ get_flag fuel h r (code_of f) def = Ok def).
Proof. apply flag_got. Qed.
Print Assumptions C113_get.
(** The kind of a field is that of its type and flags *)
Theorem C113_kind h d k : kind_is h d k -> exists n, forall fuel, (n <= fuel)%nat -> field_type fuel h (ODict d) = Ok k.
Proof. apply kind_found. Qed.
Print Assumptions C113_kind.
(** A field made from a dictionary without flags, or as a child of a field of this kind, has the kind it was made for; only
    /FT, /Ff, /DS and /Parent of this dictionary are changed. *)
Theorem C113_new h r d k : at_dict h r d -> get_key (bs "Ff") d = None -> get_key (bs "Parent") d = None -> k <> KUnknown ->
  made h r d k (fun fuel => new_field fuel h r k None).
Proof. apply new_root. Qed.
Print Assumptions C113_new.
Theorem C113_new_child h r d p dp k : at_dict h r d -> get_key (bs "FT") d = None -> get_key (bs "Ff") d = None -> h p = Some (ODict dp) -> p <> r ->
  kind_is h dp k -> without h r kind_keys dp -> k <> KUnknown -> made h r d k (fun fuel => new_field fuel h r k (Some p)).
Proof. apply new_child. Qed.
Print Assumptions C113_new_child.
(** Setting a flag that does not tell kinds apart keeps the kind *)
Theorem C113_kind_kept h r d z f on k : at_dict h r d -> flags_in h d z -> kind_is h d k -> kind_flag f = false -> without h r [bs "FT"] d ->
  exists n h' d', (forall fuel, (n <= fuel)%nat -> set_flag fuel h r (code_of f) on = Ok h') /\ at_dict h' r d' /\ kind_is h' d' k.
Proof. apply kind_kept. Qed.
Print Assumptions C113_kind_kept.

(** A group of radio buttons 1 0 with a button 2 0 that has no entries yet *)
Definition radios : heap := fun q =>
  if beq [fst q; snd q] [1; 0] then Some (ODict [(bs "FT", OName (bs "Btn")); (bs "Ff", ONum 49152)])
  else if beq [fst q; snd q] [2; 0] then Some (ODict [(bs "Parent", ORef 1 0)])
  else if beq [fst q; snd q] [3; 0] then Some (ODict []) else None.
Example C113_case : exists h, set_flag 5 radios (2, 0) (code_of Required) true = Ok h /\
  h (2, 0) = Some (ODict [(bs "Ff", ONum 49154); (bs "Parent", ORef 1 0)]) /\ h (1, 0) = radios (1, 0) /\
  field_type 5 h (ODict [(bs "Ff", ONum 49154); (bs "Parent", ORef 1 0)]) = Ok KRadio /\
  (exists h', new_field 5 radios (3, 0) KRadio (Some (1, 0)) = Ok h' /\ h' (3, 0) = Some (ODict [(bs "Parent", ORef 1 0)]) /\ field_type 5 h' (ODict [(bs "Parent", ORef 1 0)]) = Ok KRadio) /\
  (exists h', new_field 5 radios (3, 0) KPush None = Ok h' /\ h' (3, 0) = Some (ODict [(bs "FT", OName (bs "Btn")); (bs "Ff", ONum 65536)])).
Proof.
  eexists. split; [vm_compute; reflexivity|]. split; [vm_compute; reflexivity|]. split; [vm_compute; reflexivity|]. split; [vm_compute; reflexivity|].
  split; eexists; (split; [vm_compute; reflexivity|]); repeat split; vm_compute; reflexivity.
Qed.

(** ** C114: names *)

(** The full name of a field is the partial names from the root down, joined by periods; escaped, the periods of the partial
    names are doubled. *)
Theorem C114_full h r d ns : h r = Some (ODict d) -> lineage h (ODict d) ns -> Forall (fun n => n <> []) ns ->
  exists n, forall fuel, (n <= fuel)%nat ->
    (exists x, full_name fuel h r false = Ok x /\ dotted ns x) /\
    (exists x ms, full_name fuel h r true = Ok x /\ Forall2 doubled ns ms /\ dotted ms x).
Proof. apply names_joined. Qed.
Print Assumptions C114_full.
(** Fields with different names have different full names, if the names have no periods; different escaped names, if no name
    begins with a period *)
Theorem C114_unique h r d ns h2 r2 d2 ns2 : h r = Some (ODict d) -> lineage h (ODict d) ns -> h2 r2 = Some (ODict d2) -> lineage h2 (ODict d2) ns2 ->
  exists n, forall fuel, (n <= fuel)%nat ->
    (Forall (fun n => n <> [] /\ ~ In 46 n) ns -> Forall (fun n => n <> [] /\ ~ In 46 n) ns2 -> full_name fuel h r false = full_name fuel h2 r2 false -> ns = ns2) /\
    (Forall (fun n => n <> [] /\ ~ starts_with_dot n) ns -> Forall (fun n => n <> [] /\ ~ starts_with_dot n) ns2 -> full_name fuel h r true = full_name fuel h2 r2 true -> ns = ns2).
Proof. apply names_unique. Qed.
Print Assumptions C114_unique.
(** A name is set, refused if it has a period, or removed *)
Theorem C114_set h r d n : at_dict h r d -> ~ In 46 n -> exists h' d', set_name h r (Some n) = Ok h' /\ changed_only h h' r /\ at_dict h' r d' /\ same_but [bs "T"] d d' /\
  own_name d' [n] /\ get_name_raw h' r = Ok (Some n) /\ forall fuel, get_name (S fuel) h' r = Ok (Some n).
Proof. apply name_set. Qed.
Print Assumptions C114_set.
Theorem C114_refused h r n : In 46 n -> set_name h r (Some n) = Err EInternalLogic. Proof. apply name_dot. Qed.
Print Assumptions C114_refused.
Theorem C114_removed h r d : at_dict h r d -> exists h' d', set_name h r None = Ok h' /\ changed_only h h' r /\ at_dict h' r d' /\ same_but [bs "T"] d d' /\ own_name d' [] /\ get_name_raw h' r = Ok None.
Proof. apply name_cleared. Qed.
Print Assumptions C114_removed.
(** Escaping does not tell all names apart; an empty name disappears *)
Theorem C114_escaped_refuted : exists a b a2 b2, [a; b] <> [a2; b2] /\ Forall (fun n => n <> []) [a; b; a2; b2] /\
  (exists x, forall fuel, full_name (S (S fuel)) (two a b) (2, 0) true = Ok x /\ full_name (S (S fuel)) (two a2 b2) (2, 0) true = Ok x).
Proof. apply escaped_alike. Qed.
Print Assumptions C114_escaped_refuted.
Theorem C114_empty_refuted b : exists x, forall fuel, full_name (S (S fuel)) (two [] b) (2, 0) false = Ok x /\ dotted [b] x.
Proof. apply empty_alike. Qed.
Print Assumptions C114_empty_refuted.
(** A field that is its own parent: no end *)
Theorem C114_cycle_refuted h r d : h r = Some (ODict d) -> get_key (bs "Parent") d = Some (to_ref r) -> forall fuel esc, full_name fuel h r esc = Fuel.
Proof. apply name_cycle. Qed.
Print Assumptions C114_cycle_refuted.
(** A name that is an indirect object is read by GetName, but GetFullName raises *)
Theorem C114_indirect_refuted h r d n g hx s : h r = Some (ODict d) -> get_key (bs "T") d = Some (ORef n g) -> h (n, g) = Some (OStr hx s) -> get_key (bs "Parent") d = None ->
  forall fuel esc, full_name (S fuel) h r esc = Err EInvalidDataType /\ get_name (S fuel) h r = Ok (Some s).
Proof. apply name_by_reference. Qed.
Print Assumptions C114_indirect_refuted.
Example C114_case : (exists d, two (bs "form.1") (bs "name") (2, 0) = Some (ODict d) /\ lineage (two (bs "form.1") (bs "name")) (ODict d) [bs "form.1"; bs "name"]) /\
  full_name 5 (two (bs "form.1") (bs "name")) (2, 0) true = Ok (bs "form..1.name") /\ full_name 5 (two (bs "form.1") (bs "name")) (2, 0) false = Ok (bs "form.1.name") /\
  set_name radios (3, 0) (Some (bs "a.b")) = Err EInternalLogic.
Proof. split; [apply two_lineage|]. repeat split; vm_compute; reflexivity. Qed.

(** ** C115: choice fields *)

(** Inserting appends an item, removing takes the one at the index; nothing else in the field changes, and no object but the
    field and its array *)
Theorem C115_insert h r its v t : options h r its -> exists h' d d', insert_item h r v t = Ok h' /\ options h' r (its ++ [item_value v t]) /\
  at_dict h r d /\ at_dict h' r d' /\ same_but [bs "Opt"] d d' /\ (forall q, q <> r -> ~ opt_object h r q -> h' q = h q).
Proof. apply insert_good. Qed.
Print Assumptions C115_insert.
Theorem C115_remove h r its i : options h r its -> (i < length its)%nat -> exists h' d d', remove_item h r i = Ok h' /\ options h' r (firstn i its ++ skipn (S i) its) /\
  at_dict h r d /\ at_dict h' r d' /\ same_but [bs "Opt"] d d' /\ (forall q, q <> r -> ~ opt_object h r q -> h' q = h q).
Proof. apply remove_good. Qed.
Print Assumptions C115_remove.
(** The items and their number are read as they are; an index that is out of range raises, or there is no /Opt *)
Theorem C115_items h r its : options h r its -> item_count h r = Ok (Z.of_nat (length its)) /\
  (forall i v t, nth_error its i = Some (v, t) -> get_item h r (Z.of_nat i) = Ok v /\ get_display h r (Z.of_nat i) = Ok (Some t)) /\
  (forall i, Z.of_nat (length its) <= i -> exists e, get_item h r i = Err e) /\
  (forall i, i < 0 \/ Z.of_nat (length its) <= i -> get_display h r i = Err EValueOutOfRange \/ (its = [] /\ get_display h r i = Ok None)) /\
  (forall i, (length its <= i)%nat -> remove_item h r i = Err EValueOutOfRange \/ (its = [] /\ remove_item h r i = Ok h)).
Proof.
  intro H. split; [apply count_good, H|]. split; [intros i v t; apply get_good, H|]. split; [intro i; apply get_beyond, H|]. split; [intro i; apply display_out, H|intro i; apply remove_beyond, H].
Qed.
Print Assumptions C115_items.
(** Selecting an item changes /V only; the selected index is the first one with this value *)
Theorem C115_select h r its d i v t : options h r its -> h r = Some (ODict d) -> get_key (bs "Kids") d = None -> nth_error its i = Some (v, t) -> Z.of_nat i < 2 ^ 32 ->
  exists h' n, set_selected h r (Z.of_nat i) = Ok h' /\ changed_only h h' r /\ options h' r its /\ first_with v its n /\ get_selected h' r = Ok (Z.of_nat n) /\
    exists d', at_dict h' r d' /\ same_but [bs "V"] d d' /\ get_key (bs "V") d' = Some (OStr false v).
Proof. apply selected_good. Qed.
Print Assumptions C115_select.
(** A negative index, or one beyond the items, is refused; a value that no item has is at index -1 *)
Theorem C115_unselected h r its d : options h r its -> h r = Some (ODict d) ->
  (forall i, Z.of_nat (length its) <= i < 2 ^ 32 \/ (- 2 ^ 31 <= i < 0 /\ Z.of_nat (length its) <= 2 ^ 31) -> exists e, set_selected h r i = Err e) /\
  (forall hx v, get_key (bs "Kids") d = None -> get_key (bs "V") d = Some (OStr hx v) -> (forall x, In x its -> fst x <> v) -> get_selected h r = Ok (-1)).
Proof.
  intros H HR. split; [|intros hx v K V N; eapply selected_none; eauto]. intros i I. apply (select_out h r its d i H HR). unfold u32.
  destruct I as [I|[I L]]; [rewrite Z.mod_small by lia; lia|]. rewrite <- (Z.mod_add i 1 (2 ^ 32)) by lia. rewrite Z.mod_small by lia. lia.
Qed.
Print Assumptions C115_unselected.
(** Removing an item keeps the value, though it may be that of the removed item *)
Theorem C115_removed_refuted h r its i d hx v : options h r its -> (i < length its)%nat -> h r = Some (ODict d) -> get_key (bs "V") d = Some (OStr hx v) ->
  exists h' d', remove_item h r i = Ok h' /\ h' r = Some (ODict d') /\ get_key (bs "V") d' = Some (OStr hx v).
Proof. apply remove_keeps_value. Qed.
Print Assumptions C115_removed_refuted.
(** An item that is an array of one string is found as the selected one, but cannot be read *)
Theorem C115_single_refuted h r d hx s : h r = Some (ODict d) -> get_key (bs "Kids") d = None -> get_key (bs "Opt") d = Some (OArr [OArr [OStr hx s]]) -> get_key (bs "V") d = Some (OStr hx s) ->
  get_selected h r = Ok 0 /\ get_item h r 0 = Err EInvalidDataType.
Proof. apply choice_item_one. Qed.
Print Assumptions C115_single_refuted.
(** An item that is an indirect object cannot be read *)
Theorem C115_indirect_refuted h r d n g x : h r = Some (ODict d) -> get_key (bs "Opt") d = Some (OArr [ORef n g]) -> h (n, g) = Some (OStr false x) ->
  get_item h r 0 = Err EInvalidDataType.
Proof. apply choice_by_reference. Qed.
Print Assumptions C115_indirect_refuted.
Definition listed : heap := fun q =>
  if beq [fst q; snd q] [1; 0] then Some (ODict [(bs "FT", OName (bs "Ch")); (bs "Opt", ORef 2 0)])
  else if beq [fst q; snd q] [2; 0] then Some (OArr [OStr false (bs "a"); OArr [OStr false (bs "b"); OStr false (bs "Bee")]; OStr true (bs "b")]) else None.
Example C115_case : options listed (1, 0) [(bs "a", bs "a"); (bs "b", bs "Bee"); (bs "b", bs "b")] /\
  exists h h', set_selected listed (1, 0) 2 = Ok h /\ get_selected h (1, 0) = Ok 1 /\ insert_item h (1, 0) (bs "c") (Some (bs "Sea")) = Ok h' /\
  get_display h' (1, 0) 3 = Ok (Some (bs "Sea")) /\ get_item h' (1, 0) 3 = Ok (bs "c") /\ item_count h' (1, 0) = Ok 4.
Proof.
  split.
  - eapply op_indirect; [split; [reflexivity|]|reflexivity|reflexivity|repeat constructor]. repeat constructor.
  - do 2 eexists. split; [vm_compute; reflexivity|]. split; [vm_compute; reflexivity|]. split; [vm_compute; reflexivity|]. repeat split; vm_compute; reflexivity.
Qed.

(** ** C116: text fields, check boxes, highlighting and actions *)

(** The text that is set is read back, as /V or as /RV of a rich text; nothing else is changed *)
Theorem C116_text h r d z s o : at_dict h r d -> get_key (bs "Kids") d = None -> flags_in h d z -> without h r [bs "Ff"] d ->
  inherits h (bs "MaxLen") d o -> (o = None \/ exists m, o = Some (ONum m)) ->
  exists n h', (forall fuel, (n <= fuel)%nat -> set_text fuel h r (Some s) = Ok h' /\ get_text fuel h' r = Ok (Some s)) /\ changed_only h h' r /\
    exists d', at_dict h' r d' /\ same_but [text_key (has_flag z RichText)] d d' /\ get_key (text_key (has_flag z RichText)) d' = Some (OStr false s).
Proof. apply text_good. Qed.
Print Assumptions C116_text.
(** The maximum length is never read: GetMaxLen gives -1 whatever the number, and longer texts are set (as above) *)
Theorem C116_max_len_refuted h r d m fuel : at_dict h r d -> exists h', set_max_len h r m = Ok h' /\ get_max_len (S fuel) h' r = Ok (-1).
Proof. apply max_len_lost. Qed.
Print Assumptions C116_max_len_refuted.
(** Spell checking and scrolling are reported as the opposite of what was set *)
Theorem C116_spell_refuted h r d z on : at_dict h r d -> flags_in h d z ->
  exists n h', forall fuel, (n <= fuel)%nat -> set_spell fuel h r on = Ok h' /\ is_spell fuel h' r = Ok (negb on).
Proof. apply spell_opposite. Qed.
Print Assumptions C116_spell_refuted.
Theorem C116_scroll_refuted h r d z on : at_dict h r d -> flags_in h d z ->
  exists n h', forall fuel, (n <= fuel)%nat -> set_scroll fuel h r on = Ok h' /\ is_scroll fuel h' r = Ok (negb on).
Proof. apply scroll_opposite. Qed.
Print Assumptions C116_scroll_refuted.
(** Check boxes *)
Theorem C116_checked h r d on : at_dict h r d -> exists h' d', set_checked h r on = Ok h' /\ is_checked h' r = Ok on /\ changed_only h h' r /\
  at_dict h' r d' /\ same_but [bs "V"; bs "AS"] d d' /\ get_key (bs "AS") d' = get_key (bs "V") d'.
Proof. apply checked_good. Qed.
Print Assumptions C116_checked.
(** Highlighting *)
Theorem C116_mode h r d m : at_dict h r d -> m <> MUnknown -> exists h' d', set_mode h r m = Ok h' /\ get_mode h' r = Ok m /\ changed_only h h' r /\ at_dict h' r d' /\ same_but [bs "H"] d d'.
Proof. apply mode_good. Qed.
Print Assumptions C116_mode.
(** An additional action is set under the key of its trigger and keeps the others *)
Theorem C116_action h r aa t a : actions h r aa -> t <> TFocusLeave -> exists h' aa', set_action h r t a = Ok h' /\ actions h' r aa' /\
  get_key (trigger_key t) aa' = Some (to_ref a) /\ same_but [trigger_key t] aa aa'.
Proof. intros A N. destruct (triggers_known t) as [<-|E]; [apply action_good, A|contradiction]. Qed.
Print Assumptions C116_action.
(** but that for losing the focus has a key that no viewer knows *)
Theorem C116_focus_refuted h r aa a : actions h r aa -> exists h' aa', set_action h r TFocusLeave a = Ok h' /\ actions h' r aa' /\
  get_key (trigger_key TFocusLeave) aa' = get_key (trigger_key TFocusLeave) aa /\ get_key (bs "BI") aa' = Some (to_ref a).
Proof.
  intro A. destruct (action_good h r aa TFocusLeave a A) as (h' & aa' & E & A' & G & B). exists h', aa'. split; [exact E|]. split; [exact A'|]. split; [|exact G].
  apply B. intros [X|[]]; discriminate.
Qed.
Print Assumptions C116_focus_refuted.
Example C116_case : (exists h, set_text 5 radios (3, 0) (Some (bs "hello")) = Ok h /\ get_text 5 h (3, 0) = Ok (Some (bs "hello")) /\ h (3, 0) = Some (ODict [(bs "V", OStr false (bs "hello"))])) /\
  (exists h, set_checked radios (3, 0) true = Ok h /\ is_checked h (3, 0) = Ok true) /\
  (exists h, set_action radios (3, 0) TMouseUp (9, 0) = Ok h /\ h (3, 0) = Some (ODict [(bs "AA", ODict [(bs "U", ORef 9 0)])])) /\
  actions radios (3, 0) [].
Proof.
  split; [eexists; split; [vm_compute; reflexivity|]; split; vm_compute; reflexivity|]. split; [eexists; split; vm_compute; reflexivity|]. split; [eexists; split; vm_compute; reflexivity|].
  exists []. split; [split; [reflexivity|constructor]|]. split; [constructor|]. right. split; [|reflexivity]. apply find_none. reflexivity.
Qed.
