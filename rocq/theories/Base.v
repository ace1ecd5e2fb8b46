(** Common vocabulary: bytes, byte strings, machine-width arithmetic, results. *)
From Coq Require Export ZArith List Bool Lia.
From Coq Require Import String Ascii.
Export ListNotations.
Local Open Scope Z_scope.

(** A C++ [char] holding one octet, written as its unsigned value. *)
Definition is_byte (c : Z) : Prop := 0 <= c < 256.
Definition is_byteb (c : Z) : bool := (0 <=? c) && (c <? 256).
Definition bytes_ok (l : list Z) : Prop := Forall is_byte l.

(** Value of a [char] where the code uses it as a (signed) number: x86 ABI, [char] is signed. *)
Definition schar (c : Z) : Z := if c <? 128 then c else c - 256.

(** Conversion to [unsigned char] / [uint8_t], [uint16_t], [uint32_t], [uint64_t]. *)
Definition u8 (z : Z) : Z := z mod 2 ^ 8.
Definition u16 (z : Z) : Z := z mod 2 ^ 16.
Definition u32 (z : Z) : Z := z mod 2 ^ 32.
Definition u64 (z : Z) : Z := z mod 2 ^ 64.

(** Byte string of a Coq string literal, used for the keywords of the PDF syntax. *)
Fixpoint bs (s : string) : list Z :=
  match s with
  | EmptyString => []
  | String a r => Z.of_nat (nat_of_ascii a) :: bs r
  end.

(** Equality of byte strings. *)
Fixpoint beq (a b : list Z) : bool :=
  match a, b with
  | [], [] => true
  | x :: a', y :: b' => (x =? y) && beq a' b'
  | _, _ => false
  end.

Lemma beq_eq a : forall b, beq a b = true <-> a = b.
Proof.
  induction a as [|x a IH]; intros [|y b]; simpl; split; intro H; try congruence; auto.
  - apply andb_true_iff in H. destruct H as [H1 H2]. apply Z.eqb_eq in H1. apply IH in H2. congruence.
  - inversion H; subst. rewrite Z.eqb_refl. simpl. apply IH. reflexivity.
Qed.

Lemma beq_refl a : beq a a = true.
Proof. apply beq_eq. reflexivity. Qed.

Lemma beq_neq a b : beq a b = false <-> a <> b.
Proof.
  destruct (beq a b) eqn:E.
  - apply beq_eq in E. split; congruence.
  - split; auto. intros _ H. apply beq_eq in H. congruence.
Qed.

(** All octets, for checking decidable facts about one byte by computation. *)
Definition all_bytes : list Z := map Z.of_nat (seq 0 256).

Lemma all_bytes_in c : is_byte c -> In c all_bytes.
Proof.
  intros [H1 H2]. unfold all_bytes. apply in_map_iff. exists (Z.to_nat c). split.
  - apply Z2Nat.id. exact H1.
  - apply in_seq. lia.
Qed.

Lemma byte_check (P : Z -> bool) : forallb P all_bytes = true -> forall c, is_byte c -> P c = true.
Proof.
  intros H c Hc. rewrite forallb_forall in H. apply H. apply all_bytes_in. exact Hc.
Qed.

Lemma bytes_ok_app a b : bytes_ok (a ++ b) <-> bytes_ok a /\ bytes_ok b.
Proof. apply Forall_app. Qed.

Lemma is_byteb_iff c : is_byteb c = true <-> is_byte c.
Proof.
  unfold is_byteb, is_byte. rewrite andb_true_iff, Z.leb_le, Z.ltb_lt. tauto.
Qed.

Definition bytes_okb (l : list Z) : bool := forallb is_byteb l.
Lemma bytes_okb_iff l : bytes_okb l = true <-> bytes_ok l.
Proof.
  unfold bytes_okb, bytes_ok. rewrite forallb_forall, Forall_forall.
  split; intros H x Hx; apply is_byteb_iff, H, Hx.
Qed.

(** Outcome of a modelled call: normal return, a raised [PdfError] with its code, undefined
    behaviour, or the artificial exhaustion of fuel (excluded by the theorems). *)
Inductive errc :=
| EInvalidName | ENoNumber | EUnexpectedEOF | EInvalidDataType | EInvalidEnumValue
| EInvalidXRef | EInvalidHandle | EUnsupportedFilter | EInvalidPredictor | EValueOutOfRange
| EInternalLogic | EInvalidStream | EPageNotFound | EInvalidDeviceOperation | EInvalidHexString
| ENoXRef | ENoTrailer | ENoObject | EOutlineItemAlreadyPresent | EInvalidKey | EFilter | EInvalidEncoding
| EInvalidTrailerSize | EInvalidInput | EInvalidPassword | EInvalidEncryptionDict | EChangeOnImmutable
| ENoEOFToken | EInvalidXRefStream | EInvalidXRefType | ENoPdfFile | EInvalidObject | EInvalidPageTree | EInvalidFontData
| EOutOfMemory | EBrokenFile | EInvalidStreamLength | EInvalidContentStream | EUnsupportedFontFormat | EWrongDestinationType
| EMissingEndStream | EFlate | ENotImplemented | EInvalidFontFile | ECannotConvertColor | EInvalidStrokeStyle.

Inductive res (A : Type) :=
| Ok (a : A)
| Err (e : errc)
| UB
| Fuel.
Arguments Ok {A} _. Arguments Err {A} _. Arguments UB {A}. Arguments Fuel {A}.

Definition bind {A B} (r : res A) (f : A -> res B) : res B :=
  match r with Ok a => f a | Err e => Err e | UB => UB | Fuel => Fuel end.
Notation "'do' x <- r ; k" := (bind r (fun x => k)) (at level 200, x pattern, r at level 100, k at level 200).

Lemma ok_inj {A} (a b : A) : Ok a = Ok b -> a = b.
Proof. congruence. Qed.
