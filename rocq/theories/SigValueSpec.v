(** What the value of a signature field says, by the standard: 12.8.1, tables 252-254. *)
From Coq Require Import String.
From Verif Require Import Base TokModel LinkSpec AnnotSpec SigValueModel.
Local Open Scope Z_scope.

(** What was last said of a signature: its texts, the application that made it, and the permission that its certification gives *)
Record said := mk_said { s_texts : attr -> option (list Z); s_creator : option (list Z); s_cert : option Z }.
Definition nothing : said := mk_said (fun _ => None) None None.
Definition attr_eqb (a b : attr) : bool :=
  match a, b with AName, AName | AReason, AReason | ALocation, ALocation | ADate, ADate => true | _, _ => false end.
(** What one operation says; nothing is said of a signature that has no value yet, and making the value and preparing it say nothing *)
Definition say (s : option said) (o : op) : option said :=
  match s, o with
  | None, (Ensure | Prepare _ _ _ _ _) => Some nothing
  | None, _ => None
  | Some x, SetText a t => Some (mk_said (fun b => if attr_eqb a b then t else s_texts x b) (s_creator x) (s_cert x))
  | Some x, SetCreator t => Some (mk_said (s_texts x) t (s_cert x))
  | Some x, Certify p => Some (mk_said (s_texts x) (s_creator x) (Some p))
  | Some x, _ => Some x
  end.
(** Tables 253-254: a reference dictionary for the modification detection with the permission [p] *)
Definition reference_for (h : document) (o : obj) (p : Z) : Prop :=
  exists d q, o = ODict d /\ entry_is h d (bs "TransformMethod") (OName (bs "DocMDP")) /\
    entry_is h d (bs "TransformParams") (ODict q) /\ entry_is h q (bs "P") (ONum p) /\ entry_is h q (bs "V") (OName (bs "1.2")) /\
    entry_is h q (bs "Type") (OName (bs "TransformParams")) /\ entry_is h d (bs "Type") (OName (bs "SigRef")).
(** The signature field [f] in the document with the catalog [c] says [s] *)
Definition says (h : document) (f c : Z * Z) (s : option said) : Prop :=
  exists d, h f = Some (ODict d) /\
  match s with
  | None => absent d (bs "V")
  | Some x => exists n g v, dict_get (bs "V") d = Some (ORef n g) /\ h (n, g) = Some (ODict v) /\
      (forall a, text_is h v (attr_key a) (s_texts x a)) /\
      match s_creator x with
      | None => absent v (bs "Prop_Build")
      | Some t => exists b a, entry_is h v (bs "Prop_Build") (ODict b) /\ entry_is h b (bs "App") (ODict a) /\ text_is h a (bs "Name") (Some t)
      end /\
      match s_cert x with
      | None => absent v (bs "Reference")
      | Some p => (exists o, entry_is h v (bs "Reference") (OArr [o]) /\ reference_for h o p) /\
          exists k m, h c = Some (ODict k) /\ entry_is h k (bs "Perms") (ODict m) /\ dict_get (bs "DocMDP") m = Some (ORef n g)
      end
  end.
(** Some object of the document refers to [r] *)
Fixpoint refers (o : obj) (r : Z * Z) : Prop :=
  match o with
  | ORef n g => (n, g) = r
  | OArr l => (fix go l := match l with [] => False | x :: t => refers x r \/ go t end) l
  | ODict d => (fix go (l : list (list Z * obj)) := match l with [] => False | (_, x) :: t => refers x r \/ go t end) d
  | _ => False
  end.
Definition referred (h : document) (r : Z * Z) : Prop := exists q o, h q = Some o /\ refers o r.
