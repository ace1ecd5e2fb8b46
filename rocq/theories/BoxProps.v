(** C142, C143, C144: boxes, rotation and size of pages, and forms made of pages *)
From Coq Require Import String QArith Lqa.
From Verif Require Import Base ChainProofs TokModel OwnModel OwnSpec OwnProofs ListModel PageModel PageProofs RectModel LinkSpec LinkModel LinkProofs AnnotSpec AnnotModel AnnotProofs AnnotPropLemmas.
From Verif Require Import TokProofs CMapSpec ContentsModel ContentsSpec BoxSpec BoxModel BoxProofs.
From Verif Require RectProps.
Local Open Scope Z_scope.

(** ** C142 *)
(** The boxes are those of the standard. Missing: ArtBox, BleedBox and TrimBox of a parent (refuted below), arrays with references to numbers (refuted). *)
Theorem C142_boxes_partial : forall h d,
  (forall a b c e, media_is h d a b c e -> exists n q, (forall fuel, (n <= fuel)%nat -> media_box fuel h d = Ok q) /\ spans (rl q) (rb q) (rw q) (rh q) a b c e) /\
  (forall a b c e, crop_is h d a b c e -> exists n q, (forall fuel, (n <= fuel)%nat -> crop_box fuel h d = Ok q) /\ spans (rl q) (rb q) (rw q) (rh q) a b c e) /\
  (forall k a b c e, other_is h k d a b c e -> (exists v, entry h d k v) \/ inherits h k d None ->
    exists n q, (forall fuel, (n <= fuel)%nat -> other_box fuel h k d = Ok q) /\ spans (rl q) (rb q) (rw q) (rh q) a b c e).
Proof. intros h d. split; [apply media_read|]. split; [apply crop_read|]. intros k a b c e. apply other_read. Qed.
Print Assumptions C142_boxes_partial.
(** False: a box that is not inherited is taken from the parents *)
Theorem C142_trim_refuted : forall h k d l a b c e, (forall v, ~ entry h d k v) -> inherits h k d (Some (OArr l)) -> rectangle l a b c e ->
  exists n q, (forall fuel, (n <= fuel)%nat -> other_box fuel h k d = Ok q) /\ spans (rl q) (rb q) (rw q) (rh q) a b c e.
Proof. exact other_inherited. Qed.
Print Assumptions C142_trim_refuted.
(** False: a box with a reference to a number is an error *)
Theorem C142_reference_refuted : forall h d x y z n g, inherits h (bs "MediaBox") d (Some (OArr [ORef n g; x; y; z])) -> exists m, forall fuel, (m <= fuel)%nat -> media_box fuel h d = Err EInvalidDataType.
Proof. intros h d x y z n g I. destruct (inherits_found _ _ _ _ I) as (m & M). exists m. intros fuel F. unfold media_box. rewrite M by exact F. reflexivity. Qed.
Print Assumptions C142_reference_refuted.
(** A box that is set is the one that is read, and nothing else changes *)
Theorem C142_set : forall k h r d q, h r = Some (ODict d) -> (0 <= val (dw q))%Q -> (0 <= val (dh q))%Q ->
  exists h' d', set_box h r k q = Ok h' /\ h' r = Some (ODict d') /\ only [k] d d' /\ only_at r h h' /\
    (k = bs "MediaBox" -> forall fuel, exists q', media_box (S fuel) h' d' = Ok q' /\ (rl q' == val (dl q) /\ rb q' == val (db q) /\ rw q' == val (dw q) /\ rh q' == val (dh q))%Q) /\
    forall fuel, exists q', other_box (S fuel) h' k d' = Ok q' /\ (rl q' == val (dl q) /\ rb q' == val (db q) /\ rw q' == val (dw q) /\ rh q' == val (dh q))%Q.
Proof.
  intros k h r d q R W H. destruct (set_then k h r d q R) as (h' & d' & E & R' & O & OA & En & RC). exists h', d'. repeat (split; [assumption|]).
  destruct (box_read _ _ _ _ _ RC) as (q' & Q & S). assert (V : (rl q' == val (dl q) /\ rb q' == val (db q) /\ rw q' == val (dw q) /\ rh q' == val (dh q))%Q).
  { destruct S as ((S1 & S2) & (S3 & S4)). destruct S1 as [(A & B)|(A & B)], S3 as [(C & D)|(C & D)]; repeat split; lra. }
  apply dict_find_entry in En. split.
  - intros -> fuel. exists q'. split; [|exact V]. unfold media_box. cbn [find_key_parent]. rewrite En. exact Q.
  - intros fuel. exists q'. split; [|exact V]. unfold other_box. cbn [find_key_parent]. rewrite En. exact Q.
Qed.
Print Assumptions C142_set.
(** The rotation is the inherited one, as a turn counterclockwise it is the same. Missing: reals, see below. *)
Theorem C142_rotation_partial : forall h d z, (inherits h (bs "Rotate") d (Some (ONum z)) /\ - 2 ^ 31 <= z < 2 ^ 31 \/ inherits h (bs "Rotate") d None /\ z = 0) ->
  exists n, forall fuel, (n <= fuel)%nat -> get_rotation fuel h d = Ok z /\
    ((has_rotation fuel h d = Ok None /\ z mod 360 = 0) \/ exists t, has_rotation fuel h d = Ok (Some t) /\ same_turn z t /\ -360 < t < 360 /\ t <> 0).
Proof.
  intros h d z [(I & B)|(I & ->)].
  - destruct (rotation_read _ _ _ I B) as (n & N). exists n. intros fuel F. split; [apply N, F|apply angle_read, N, F].
  - destruct (rotation_none _ _ I) as (n & N). exists n. intros fuel F. split; [apply N, F|apply angle_read, N, F].
Qed.
Print Assumptions C142_rotation_partial.
(** False: a rotation written as a real is an error, unless it is zero *)
Theorem C142_real_refuted : forall h d m k, inherits h (bs "Rotate") d (Some (OReal m k)) -> m <> 0 -> exists n, forall fuel, (n <= fuel)%nat -> get_rotation fuel h d = Err EInvalidDataType.
Proof.
  intros h d m k I N. destruct (inherits_found _ _ _ _ I) as (n & M). exists n. intros fuel F. unfold get_rotation. rewrite M by exact F. cbn [bind].
  destruct (Z.eqb_spec m 0); [contradiction|reflexivity].
Qed.
Print Assumptions C142_real_refuted.
(** The four turns can be set and are read back; all else is refused *)
Theorem C142_set_rotation : forall h r d z, h r = Some (ODict d) ->
  (List.In z [0; 90; 180; 270] -> exists h' d', set_rotation h r z = Ok h' /\ h' r = Some (ODict d') /\ only [bs "Rotate"] d d' /\ only_at r h h' /\ forall fuel, get_rotation (S fuel) h' d' = Ok z) /\
  (~ List.In z [0; 90; 180; 270] -> set_rotation h r z = Err EValueOutOfRange).
Proof.
  intros h r d z R. unfold set_rotation. split; intros I.
  - assert (E : negb (z =? 0) && negb (z =? 90) && negb (z =? 180) && negb (z =? 270) = false) by (destruct I as [<-|[<-|[<-|[<-|[]]]]]; reflexivity). rewrite E.
    destruct (key_set h r d (bs "Rotate") (ONum z) R) as (h' & S & R' & O & K). exists h', (add_key (bs "Rotate") (ONum z) d). repeat (split; [assumption|]). intros fuel.
    unfold get_rotation. cbn [find_key_parent]. unfold dict_find, get_key. rewrite get_add_same. cbn [bind]. rewrite int_id; [reflexivity|]. destruct I as [<-|[<-|[<-|[<-|[]]]]]; lia.
  - destruct (Z.eqb_spec z 0) as [->|]; [destruct I; left; reflexivity|]. destruct (Z.eqb_spec z 90) as [->|]; [destruct I; right; left; reflexivity|].
    destruct (Z.eqb_spec z 180) as [->|]; [destruct I; right; right; left; reflexivity|]. destruct (Z.eqb_spec z 270) as [->|]; [destruct I; right; right; right; left; reflexivity|]. reflexivity.
Qed.
Print Assumptions C142_set_rotation.
(** The page 3 below the node 1, which has boxes and a rotation *)
Definition a_book : heap := fun r =>
  if ListModel.ref_eqb r (1, 0) then Some (ODict [(bs "CropBox", OArr [ONum 90; ONum 80; ONum 10; ONum 20]); (bs "MediaBox", ORef 7 0); (bs "Rotate", ONum (-90)); (bs "TrimBox", OArr [ONum 1; ONum 2; ONum 3; ONum 4])])
  else if ListModel.ref_eqb r (3, 0) then Some (ODict [(bs "BleedBox", OArr [ONum 5; ONum 5; OReal 605 1; ONum 50]); (bs "Parent", ORef 1 0)])
  else if ListModel.ref_eqb r (4, 0) then Some (ODict [(bs "Parent", ORef 1 0)])
  else if ListModel.ref_eqb r (7, 0) then Some (OArr [ONum 0; ONum 0; ONum 100; ONum 100]) else None.
Example C142_case :
  (match dict_at a_book (3, 0) with
   | Ok d => match media_box 5 a_book d, crop_box 5 a_book d, other_box 5 a_book (bs "BleedBox") d, other_box 5 a_book (bs "ArtBox") d, other_box 5 a_book (bs "TrimBox") d with
     | Ok m, Ok c, Ok b, Ok a, Ok t => (rw m == 100 /\ rl c == 10 /\ rb c == 20 /\ rw c == 80 /\ rh c == 60 /\ rw b == 555 # 10 /\ rl a == 10 /\ rl t == 1)%Q
     | _, _, _, _, _ => False
     end /\ get_rotation 5 a_book d = Ok (-90) /\ has_rotation 5 a_book d = Ok (Some 90)
   | _ => False
   end).
Proof. vm_compute. repeat split; reflexivity. Qed.

(** ** C143 *)
(** The width ([i] is 0) or height ([i] is 1) of a page with boxes of its own is set: the first corners stay, the others are moved, and only the two
    boxes of this page change. Missing: pages with inherited boxes and without a crop box (refuted below), arrays that begin with the right or upper end
    (refuted). *)
Theorem C143_size_partial : forall fuel h r d la lb a b c e a' b' c' e' i n, h r = Some (ODict d) -> dict_get (bs "MediaBox") d = Some (OArr la) -> dict_get (bs "CropBox") d = Some (OArr lb) ->
  rectangle la a b c e -> rectangle lb a' b' c' e' -> (i < 2)%nat -> 0 <= n -> (a <= c)%Q -> (b <= e)%Q -> (a' <= c')%Q -> (b' <= e')%Q ->
  exists h' d' m q, set_size (S fuel) h r i n = Ok (h', true) /\ h' r = Some (ODict d') /\ only_at r h h' /\ only [bs "MediaBox"; bs "CropBox"] d d' /\
    (forall f, media_box (S f) h' d' = Ok m /\ crop_box (S f) h' d' = Ok q) /\
    (rl m == a /\ rb m == b /\ rl q == a' /\ rb q == b')%Q /\
    (if Nat.eqb i 0 then rw m == inject_Z n /\ rh m == e - b /\ rw q == inject_Z n /\ rh q == e' - b' else rw m == c - a /\ rh m == inject_Z n /\ rw q == c' - a' /\ rh q == inject_Z n)%Q.
Proof.
  intros fuel h r d la lb a b c e a' b' c' e' i n R GA GB RA RB I N L1 L2 L3 L4.
  destruct (own_size fuel h r d la lb a b c e a' b' c' e' i n R GA GB RA RB I) as (h' & d' & la' & lb' & E & R' & OA & O & GA' & RA' & GB' & RB').
  destruct (box_read _ _ _ _ _ RA') as (m & M & SM). destruct (box_read _ _ _ _ _ RB') as (q & Q & SQ). exists h', d', m, q. repeat (split; [assumption|]).
  assert (P : (0 <= inject_Z n)%Q) by (change 0%Q with (inject_Z 0); rewrite <- Zle_Qle; exact N).
  split.
  { intros f. unfold media_box, crop_box. cbn [find_key_parent]. unfold dict_find, get_key. rewrite GA', GB'. split; [exact M|exact Q]. }
  unfold spans, ends, far in *. destruct i as [|[|i]]; [| |lia]; cbn [Nat.eqb] in *; destruct SM as ((M1 & M2) & (M3 & M4)), SQ as ((Q1 & Q2) & (Q3 & Q4));
    destruct M1 as [(? & ?)|(? & ?)], M3 as [(? & ?)|(? & ?)], Q1 as [(? & ?)|(? & ?)], Q3 as [(? & ?)|(? & ?)]; repeat split; lra.
Qed.
Print Assumptions C143_size_partial.
(** False: on a page without a crop box the size is set, but the answer is that it is not *)
Theorem C143_answer_refuted : forall fuel h r d la a b c e i n, h r = Some (ODict d) -> dict_get (bs "MediaBox") d = Some (OArr la) -> dict_get (bs "CropBox") d = None -> dict_get (bs "Parent") d = None ->
  rectangle la a b c e -> (i < 2)%nat ->
  exists h' d' la' c' e', set_size (S fuel) h r i n = Ok (h', false) /\ h' r = Some (ODict d') /\ dict_get (bs "MediaBox") d' = Some (OArr la') /\ rectangle la' a b c' e' /\
    (if Nat.eqb i 0 then c' == a + inject_Z n else e' == b + inject_Z n)%Q.
Proof.
  intros fuel h r d la a b c e i n R GA GB P RA I. destruct (no_crop fuel h r d la a b c e i n R GA GB P RA I) as (h' & d' & la' & E & R' & G' & RA').
  exists h', d', la', (far i n a c 0), (far i n b e 1). repeat (split; [assumption|]). destruct i as [|[|i]]; [| |lia]; cbn; reflexivity.
Qed.
Print Assumptions C143_answer_refuted.
(** False: where the boxes are inherited, the size of all other pages below the node is changed too *)
Theorem C143_others_refuted : forall fuel h r d n g pd la lb a b c e a' b' c' e' i w r2 d2, h r = Some (ODict d) -> r <> (n, g) -> dict_get (bs "MediaBox") d = None -> dict_get (bs "CropBox") d = None ->
  dict_get (bs "Parent") d = Some (ORef n g) -> h (n, g) = Some (ODict pd) -> dict_get (bs "MediaBox") pd = Some (OArr la) -> dict_get (bs "CropBox") pd = Some (OArr lb) ->
  rectangle la a b c e -> rectangle lb a' b' c' e' -> (i < 2)%nat -> 0 <= w -> (a <= c)%Q -> (b <= e)%Q ->
  r2 <> (n, g) -> h r2 = Some (ODict d2) -> dict_get (bs "MediaBox") d2 = None -> dict_get (bs "Parent") d2 = Some (ORef n g) ->
  exists h' q, set_size (S (S fuel)) h r i w = Ok (h', true) /\ h' r2 = Some (ODict d2) /\ (forall f, media_box (S (S f)) h' d2 = Ok q) /\ ((if Nat.eqb i 0 then rw q else rh q) == inject_Z w)%Q.
Proof.
  intros fuel h r d n g pd la lb a b c e a' b' c' e' i w r2 d2 R NE GA GB P H GPA GPB RA RB I W L1 L2 N2 R2 G2 P2.
  destruct (parent_size fuel h r d n g pd la lb a b c e a' b' c' e' i w R NE GA GB P H GPA GPB RA RB I) as (h' & pd' & la' & E & H' & OA & G' & RA').
  destruct (box_read _ _ _ _ _ RA') as (q & Q & S). exists h', q. split; [exact E|]. split; [rewrite OA by exact N2; exact R2|]. split.
  - intros f. unfold media_box. cbn [find_key_parent]. unfold dict_find, get_key. rewrite G2, P2, H'. rewrite G'. exact Q.
  - assert (0 <= inject_Z w)%Q by (change 0%Q with (inject_Z 0); rewrite <- Zle_Qle; exact W). unfold spans, ends, far in S.
    destruct i as [|[|i]]; [| |lia]; cbn [Nat.eqb] in *; destruct S as ((S1 & S2) & (S3 & S4)); destruct S1 as [(? & ?)|(? & ?)], S3 as [(? & ?)|(? & ?)]; lra.
Qed.
Print Assumptions C143_others_refuted.
(** False: a box that is written from right to left is moved: its left end is where its right end was *)
Theorem C143_moved_refuted : forall fuel h r d la lb a b c e a' b' c' e' n, h r = Some (ODict d) -> dict_get (bs "MediaBox") d = Some (OArr la) -> dict_get (bs "CropBox") d = Some (OArr lb) ->
  rectangle la a b c e -> rectangle lb a' b' c' e' -> 0 <= n -> (c < a)%Q ->
  exists h' d' m m', set_size (S fuel) h r 0 n = Ok (h', true) /\ h' r = Some (ODict d') /\ (forall f, media_box (S f) h d = Ok m /\ media_box (S f) h' d' = Ok m') /\
    (rl m == c /\ rl m + rw m == a /\ rl m' == a)%Q.
Proof.
  intros fuel h r d la lb a b c e a' b' c' e' n R GA GB RA RB N L.
  destruct (own_size fuel h r d la lb a b c e a' b' c' e' 0 n R GA GB RA RB ltac:(lia)) as (h' & d' & la' & lb' & E & R' & OA & O & GA' & RA' & GB' & RB').
  destruct (box_read _ _ _ _ _ RA) as (m & M & SM). destruct (box_read _ _ _ _ _ RA') as (m' & M' & SM'). exists h', d', m, m'. split; [exact E|]. split; [exact R'|].
  assert (P : (0 <= inject_Z n)%Q) by (change 0%Q with (inject_Z 0); rewrite <- Zle_Qle; exact N). split.
  - intros f. unfold media_box. cbn [find_key_parent]. unfold dict_find, get_key. rewrite GA, GA'. split; [exact M|exact M'].
  - unfold spans, ends, far in *. cbn [Nat.eqb] in *. destruct SM as ((M1 & M2) & _), SM' as ((M1' & M2') & _). destruct M1 as [(? & ?)|(? & ?)], M1' as [(? & ?)|(? & ?)]; repeat split; lra.
Qed.
Print Assumptions C143_moved_refuted.
Definition a_leaf : heap := fun r =>
  if ListModel.ref_eqb r (3, 0) then Some (ODict [(bs "CropBox", OArr [ONum 10; ONum 20; ONum 90; ONum 80]); (bs "MediaBox", OArr [ONum 0; ONum 5; ONum 100; ONum 95])]) else None.
Example C143_case :
  (match set_size 1 a_leaf (3, 0) 1 50 with
   | Ok (h, true) => h (3, 0) = Some (ODict [(bs "CropBox", OArr [ONum 10; ONum 20; ONum 90; OReal 70 0]); (bs "MediaBox", OArr [ONum 0; ONum 5; ONum 100; OReal 55 0])])
   | _ => False
   end) /\
  match a_book (4, 0), set_size 2 a_book (3, 0) 0 50 with
  | Some (ODict d), Ok (h, true) => match media_box 2 h d with Ok q => (rw q == 50)%Q | _ => False end
  | _, _ => False
  end.
Proof. vm_compute. repeat split; reflexivity. Qed.
