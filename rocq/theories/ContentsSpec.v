(** What content streams are (ISO 32000-1, 7.8.2, 8.9.7, 8.10.1 and annex A): instructions spelt in any way, and what reading them shows. *)
From Coq Require Import String Permutation.
From Verif Require Import Base TokModel WriteModel DictProofs TokProofs ObjSpec CMapModel CMapSpec ContentsModel.
Local Open Scope Z_scope.

(** ** The streams of a page: those which are not empty, divided by line feeds *)
Definition texts (l : list (option (list Z))) : list (list Z) :=
  flat_map (fun x => match x with Some (c :: r) => [c :: r] | _ => [] end) l.
Fixpoint joined (l : list (list Z)) : list Z :=
  match l with [] => [] | b :: r => match r with [] => b | _ => b ++ 10 :: joined r end end.

(** ** The operators in the order of annex A with the number of their operands ([None]: any number) *)
Definition iso_ops : list (list Z * option Z) := Eval vm_compute in
  [(bs "b", Some 0); (bs "B", Some 0); (bs "b*", Some 0); (bs "B*", Some 0); (bs "BDC", Some 2); (bs "BI", Some 0); (bs "BMC", Some 1);
   (bs "BT", Some 0); (bs "BX", Some 0); (bs "c", Some 6); (bs "cm", Some 6); (bs "CS", Some 1); (bs "cs", Some 1); (bs "d", Some 2);
   (bs "d0", Some 2); (bs "d1", Some 6); (bs "Do", Some 1); (bs "DP", Some 2); (bs "EI", Some 0); (bs "EMC", Some 0); (bs "ET", Some 0);
   (bs "EX", Some 0); (bs "f", Some 0); (bs "F", Some 0); (bs "f*", Some 0); (bs "G", Some 1); (bs "g", Some 1); (bs "gs", Some 1);
   (bs "h", Some 0); (bs "i", Some 1); (bs "ID", Some 0); (bs "j", Some 1); (bs "J", Some 1); (bs "K", Some 4); (bs "k", Some 4);
   (bs "l", Some 2); (bs "m", Some 2); (bs "M", Some 1); (bs "MP", Some 1); (bs "n", Some 0); (bs "q", Some 0); (bs "Q", Some 0);
   (bs "re", Some 4); (bs "RG", Some 3); (bs "rg", Some 3); (bs "ri", Some 1); (bs "s", Some 0); (bs "S", Some 0); (bs "SC", None);
   (bs "sc", None); (bs "SCN", None); (bs "scn", None); (bs "sh", Some 1); (bs "T*", Some 0); (bs "Tc", Some 1); (bs "Td", Some 2);
   (bs "TD", Some 2); (bs "Tf", Some 2); (bs "Tj", Some 1); (bs "TJ", Some 1); (bs "TL", Some 1); (bs "Tm", Some 6); (bs "Tr", Some 1);
   (bs "Ts", Some 1); (bs "Tw", Some 1); (bs "Tz", Some 1); (bs "v", Some 4); (bs "w", Some 1); (bs "W", Some 0); (bs "W*", Some 0);
   (bs "y", Some 4); ([39], Some 1); ([34], Some 3)].

(** ** Instructions *)
Inductive instr := IOp (args : list obj) (n : list Z) | IImage (d : list (list Z * obj)) (data : list Z).
(** A word which is no number and no constant: it begins with a character of no number *)
Definition word (n : list Z) : Prop :=
  Forall (fun c => is_regular c = true) n /\ (length n <= Z.to_nat 4095)%nat /\ ~ In n [bs "null"; bs "true"; bs "false"] /\
  match n with [] => False | c :: _ => ~ In c (bs "+-.0123456789") end.
(** [t] is a text of [o] which [k] may follow *)
Definition value_text (o : obj) (t k : list Z) : Prop :=
  exists fl, flags_ok fl /\ write fl o = Ok t /\ wf_obj ps_params o /\ (S (inner o) <= 256)%nat /\ (needs_stop o -> stops k).
(** The values [os], each after white space, and then [k] *)
Inductive values_text : list obj -> list Z -> list Z -> Prop :=
| vt_nil k : values_text [] k k
| vt_cons ws o t k os k' : blank ws -> value_text o t k -> values_text os k k' -> values_text (o :: os) (ws ++ t ++ k) k'.
Definition word_text (n : list Z) (t k : list Z) : Prop := exists ws, t = ws ++ n ++ k /\ blank ws /\ word n /\ stops k.
(** The entries [es] as names and values *)
Definition entries (es : list (list Z * obj)) : list obj := flat_map (fun p => [OName (fst p); snd p]) es.
(** The data of an image ends where EI and white space follow: [no_end] keeps them out of the data, [ends_free] keeps the data from running
    into EI *)
Definition no_end (d : list Z) : Prop := forall a w b, is_ws w = true -> d <> a ++ 69 :: 73 :: w :: b.
Definition ends_free (d : list Z) : Prop := (forall a, d <> a ++ [69]) /\ (forall a, d <> a ++ [69; 73]).
(** [t] is a text of the instructions *)
Inductive program_text : list instr -> list Z -> Prop :=
| pt_end ws : blank ws -> program_text [] ws
| pt_op args n t t1 k is : values_text args t t1 -> word_text n t1 k -> n <> bs "BI" -> program_text is k -> program_text (IOp args n :: is) t
| pt_image es d data t t1 t2 c w k is : word_text (bs "BI") t t1 -> DictProofs.sorted d -> Permutation es d ->
    values_text (entries es) t1 t2 -> word_text (bs "ID") t2 (c :: data ++ 69 :: 73 :: w :: k) -> is_ws c = true -> is_ws w = true ->
    no_end data -> ends_free data -> program_text is k -> program_text (IImage d data :: is) t.

(** ** What reading shows *)
Definition shown (t : ctype) (warn : Z) (args : list obj) (op : Z) (kw : list Z) : content := mk_ct t warn (rev args) op kw [] [] None None.
Definition count_warning (n : option Z) (args : list obj) : Z :=
  match n with
  | None => 0
  | Some n => let m := Z.of_nat (length args) in if m <? n then w_operator else if n <? m then w_spurious else 0
  end.
Definition do_shown (warn : Z) (nm : list Z) (x : Z) (k : xkind) : content := mk_ct CDoXObject warn [OName nm] 0 [] [] [] (Some nm) (Some (x, k)).
(** In the canvas [cv] ([None]: a device without a canvas), inside the contents [path], the instructions show the contents. A form is shown as
    the Do, what is in it, and its end; one which is already being read is not followed *)
Inductive shows (w : world) (nofollow : bool) : option Z -> list Z -> list instr -> list content -> Prop :=
| sh_nil cv path : shows w nofollow cv path [] []
| sh_op cv path args n k op is out : In (n, k) iso_ops -> op_name op = Some n -> n <> bs "BI" -> (n = bs "Do" -> cv = None) ->
    shows w nofollow cv path is out ->
    shows w nofollow cv path (IOp args n :: is) (shown COperator (count_warning k args) args op n :: out)
| sh_unknown cv path args n is out : ~ In n (map fst iso_ops) -> shows w nofollow cv path is out ->
    shows w nofollow cv path (IOp args n :: is) (shown CUnexpected 0 args 0 n :: out)
| sh_no_xobject cv path args op is out : (forall nm, args = [OName nm] -> w_xobject w cv nm = None) -> op_name op = Some (bs "Do") ->
    shows w nofollow (Some cv) path is out ->
    shows w nofollow (Some cv) path (IOp args (bs "Do") :: is) (shown COperator (count_warning (Some 1) args + w_xobj) args op (bs "Do") :: out)
| sh_recursive cv path nm x k is out : w_xobject w cv nm = Some (x, k) -> In x path -> shows w nofollow (Some cv) path is out ->
    shows w nofollow (Some cv) path (IOp [OName nm] (bs "Do") :: is) (do_shown w_recursive nm x k :: out)
| sh_leaf cv path nm x k is out : w_xobject w cv nm = Some (x, k) -> ~ In x path -> k <> XForm \/ nofollow = true ->
    shows w nofollow (Some cv) path is out -> shows w nofollow (Some cv) path (IOp [OName nm] (bs "Do") :: is) (do_shown 0 nm x k :: out)
| sh_form cv path nm x fis fout is out : w_xobject w cv nm = Some (x, XForm) -> ~ In x path -> nofollow <> true ->
    program_text fis (joined (texts (w_text w x))) -> shows w nofollow (Some x) (x :: path) fis fout -> shows w nofollow (Some cv) path is out ->
    shows w nofollow (Some cv) path (IOp [OName nm] (bs "Do") :: is) (do_shown 0 nm x XForm :: fout ++ shown CEndForm 0 [] 0 [] :: out)
| sh_image cv path d data is out : shows w nofollow cv path is out ->
    shows w nofollow cv path (IImage d data :: is)
      (mk_ct CImageDict 0 [] 0 [] d [] None None :: mk_ct CImageData 0 [] 0 [] [] data None None :: out).
