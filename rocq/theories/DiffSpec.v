(** What an array of differences says, and which names and codes are expected, without the functions of the model. *)
From Coq Require Import String.
From Verif Require Import Base TokModel ObjSpec.
Local Open Scope Z_scope.

(** ISO 32000-1, 9.6.6.1: a number is the code of the first name after it, the others follow. The code of a name that stands after [pre] *)
Definition is_name (o : obj) : bool := match o with OName _ => true | _ => false end.
Definition names_in (l : list obj) : Z := Z.of_nat (length (filter is_name l)).
Definition no_number (l : list obj) : Prop := forall z, ~ In (ONum z) l.
Inductive next_of : list obj -> Z -> Prop :=
  | N_after : forall p v q, no_number q -> next_of (p ++ ONum v :: q) (v + names_in q)
  | N_none : forall q, no_number q -> next_of q (-1 + names_in q).
(** The last name with a code, where codes count modulo 256 *)
Definition told (arr : list obj) (c : Z) (n : list Z) : Prop :=
  exists pre post k, arr = pre ++ OName n :: post /\ next_of pre k /\ c = k mod 256 /\
  forall pre2 m post2 k2, arr = pre2 ++ OName m :: post2 -> (length pre < length pre2)%nat -> next_of pre2 k2 -> k2 mod 256 <> c.

(** Ascending codes between two bounds *)
Fixpoint ascending {A} (lo hi : Z) (l : list (Z * A)) : Prop :=
  match l with [] => True | (c, _) :: r => lo <= c /\ c <= hi /\ ascending (c + 1) hi r end.

(** The value of a hexadecimal digit, of both cases *)
Inductive hex_is : Z -> Z -> Prop :=
  | H_digit : forall d, 0 <= d <= 9 -> hex_is (48 + d) d
  | H_upper : forall d, 0 <= d <= 5 -> hex_is (65 + d) (10 + d)
  | H_lower : forall d, 0 <= d <= 5 -> hex_is (97 + d) (10 + d).

(** The code points below 65536 that do not survive their name: no-break space, soft hyphen and others that share a name, and the ones of
    the private area whose names the other table does not have *)
Definition lost : list Z := [
  160; 173; 538; 539; 713; 916; 937; 956; 8725; 8729; 63169; 63170; 63193; 63194; 63195; 63221; 63224; 63225; 63226; 63229; 63231; 63265;
  63268; 63270; 63280; 63281; 63282; 63283; 63284; 63285; 63286; 63287; 63288; 63289; 63295; 63328; 63329; 63330; 63331; 63332; 63333; 63334;
  63335; 63336; 63337; 63338; 63339; 63340; 63341; 63342; 63343; 63344; 63345; 63346; 63347; 63348; 63349; 63350; 63351; 63352; 63353; 63354;
  63393; 63394; 63400; 63407; 63412; 63423; 63456; 63457; 63458; 63459; 63460; 63461; 63462; 63463; 63464; 63465; 63466; 63467; 63468; 63469;
  63470; 63471; 63472; 63473; 63474; 63475; 63476; 63477; 63478; 63480; 63481; 63482; 63483; 63484; 63485; 63486; 63487; 63720; 63721; 63722
].

(** The code point of a code: the one of the difference if there is one, otherwise the one of the base *)
Definition shown (l : list (Z * (list Z * Z))) (base : Z -> option Z) (c cp : Z) : Prop :=
  (exists n, In (c, (n, cp)) l) \/ (forall v, ~ In (c, v) l) /\ base c = Some cp.
