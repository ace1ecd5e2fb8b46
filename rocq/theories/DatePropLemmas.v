(** Lemmas behind the date theorems. *)
From Coq Require Import String.
From Verif Require Import Base TokModel WriteModel LexProofs TextProofs DateModel DateSpec DateProofs.
Local Open Scope Z_scope.

Lemma two_cons v : two v = (48 + v / 10) :: [48 + v mod 10]. Proof. reflexivity. Qed.
Lemma two_peek v r : 0 <= v < 100 -> shift_char (two v ++ r) = None.
Proof. intro H. rewrite two_cons. cbn [app]. apply shift_digit. zdm. Qed.
Lemma two_ne v r : two v ++ r <> []. Proof. discriminate. Qed.
Lemma parse_fields_two fs lo hi v x r : 0 <= x < 100 ->
  parse_fields ((2%nat, lo, hi) :: fs) v (two x ++ r) =
    if (lo <=? x) && (x <=? hi) then parse_fields fs (v ++ [x]) r else None.
Proof.
  intro H. pose proof (two_peek x r H) as P. pose proof (fix_two lo hi x r H) as F.
  unfold two in *. cbn [app] in *. cbn [parse_fields]. rewrite P, F. destruct ((lo <=? x) && (x <=? hi)); reflexivity.
Qed.
Lemma four_peek v r : 0 <= v < 10000 -> shift_char (four v ++ r) = None.
Proof. intro H. unfold four. rewrite <- app_assoc. apply two_peek. zdm. Qed.
Lemma parse_fields_four fs v x r : 0 <= x < 10000 ->
  parse_fields ((4%nat, 0, 9999) :: fs) v (four x ++ r) = parse_fields fs (v ++ [x]) r.
Proof.
  intro H. pose proof (four_peek x r H) as P. pose proof (fix_four x r H) as F.
  unfold four, two in *. cbn [app] in *. cbn [parse_fields]. rewrite P, F. reflexivity.
Qed.

(** seconds of the fields *)
Definition secs_of (v : list Z) : Z := d_secs (infer v None).
Lemma infer_none v : infer v None = mk_date (secs_of v) None. Proof. reflexivity. Qed.
Lemma infer_zone v sh zh zm : infer v (Some (sh, (zh, zm))) = mk_date (secs_of v - 60 * (sh * (zh * 60 + zm))) (Some (sh * (zh * 60 + zm))).
Proof. rewrite (Z.mul_comm 60). reflexivity. Qed.

(** a zone, hours up to 59 *)
Definition zone59 (o : option Z) (t : list Z) : Prop :=
  match o with
  | None => t = []
  | Some o =>
    o = 0 /\ t = [90] \/
    exists h m, 0 <= h <= 59 /\ 0 <= m <= 59 /\
    (exists s, (s = 43 /\ o = h * 60 + m \/ s = 45 /\ o = - (h * 60 + m)) /\
      (t = s :: two h ++ [39] ++ two m ++ [39] \/ t = s :: two h ++ [39] ++ two m \/
       m = 0 /\ (t = s :: two h \/ t = s :: two h ++ [39])))
  end.
Lemma pdf_zone59 o t : pdf_zone o t -> zone59 o t.
Proof.
  destruct o as [o|]; [|auto]. intros [H|(h & m & H1 & H2 & s & H3 & H4)]; [left; exact H|right].
  exists h, m. split; [lia|]. split; [lia|]. exists s. auto.
Qed.
Definition zone_date (v : list Z) (o : option Z) : date :=
  mk_date (secs_of v - 60 * match o with Some o => o | None => 0 end) o.

Lemma in_range lo hi x : lo <= x <= hi -> (lo <=? x) && (x <=? hi) = true.
Proof. intro. apply andb_true_iff. rewrite !Z.leb_le. lia. Qed.
Lemma zone_two w sh h l : 0 <= h <= 59 ->
  zone w sh (two h ++ l) =
    match (match l with
             | c :: l2 =>
               if c =? (if w then 58 else 39) then
                 match l2 with
                 | [] => Some (0, [])
                 | _ => match parse_fix 2 0 59 l2 with
                        | None => None
                        | Some (zm, l3) =>
                          Some (zm, match l3 with c :: l4 => if negb w && (c =? 39) then l4 else l3 | [] => [] end)
                        end
                 end
               else Some (0, l)
             | [] => Some (0, [])
             end) with
      | None => None
      | Some (zm, l5) =>
        if (sh =? 0) && (negb (h =? 0) || negb (zm =? 0)) then None
        else match l5 with [] => Some (h, zm) | _ => None end
      end.
Proof.
  intro H. pose proof (fix_two 0 59 h l ltac:(lia)) as F. rewrite in_range in F by lia.
  unfold two in *. cbn [app] in *. unfold zone. rewrite F. reflexivity.
Qed.
Lemma zone_two_rest w sh h m rest : 0 <= h <= 59 -> 0 <= m <= 59 -> sh <> 0 -> rest = [] \/ w = false /\ rest = [39] ->
  zone w sh (two h ++ (if w then 58 else 39) :: two m ++ rest) = Some (h, m).
Proof.
  intros H M S R. rewrite zone_two by exact H. rewrite Z.eqb_refl.
  pose proof (fix_two 0 59 m rest ltac:(lia)) as F. rewrite in_range in F by lia.
  unfold two in *. cbn [app] in *. rewrite F. destruct (Z.eqb_spec sh 0); [lia|].
  destruct R as [-> | [-> ->]]; reflexivity.
Qed.

Lemma parse_end fs v : parse_fields fs v [] = Some (infer v None).
Proof. destruct fs as [|[[n lo] hi] fs]; reflexivity. Qed.
Lemma parse_shift fs v c r sh : shift_char (c :: r) = Some (sh, r) ->
  parse_fields fs v (c :: r) = match zone false sh r with Some z => Some (infer v (Some (sh, z))) | None => None end.
Proof. intro H. destruct fs as [|[[n lo] hi] fs]; cbn [parse_fields]; rewrite H; reflexivity. Qed.
Lemma parse_zone fs v o t : zone59 o t -> parse_fields fs v t = Some (zone_date v o).
Proof.
  destruct o as [o|]; unfold zone59, zone_date.
  2:{ intros ->. rewrite parse_end, infer_none. replace (secs_of v - 60 * 0) with (secs_of v) by lia. reflexivity. }
  intros [[-> ->]|(h & m & H & M & s & S & T)].
  - rewrite (parse_shift fs v 90 [] 0) by reflexivity. cbn [zone]. rewrite infer_zone. reflexivity.
  - assert (Q : exists sh, sh <> 0 /\ shift_char (s :: skipn 1 t) = Some (sh, skipn 1 t) /\ o = sh * (h * 60 + m)).
    { destruct S as [[-> ->]|[-> ->]]; [exists 1|exists (-1)]; (split; [lia|]; split; [reflexivity|lia]). }
    destruct Q as (sh & N & SC & ->).
    assert (E : t = s :: skipn 1 t) by (destruct T as [-> | [-> | [_ [-> | ->]]]]; reflexivity).
    rewrite E, (parse_shift fs v s (skipn 1 t) sh SC).
    assert (ZE : zone false sh (skipn 1 t) = Some (h, m)).
    { destruct T as [-> | [-> | [-> [-> | ->]]]]; cbn [skipn].
      - change ([39] ++ two m ++ [39]) with ((if false then 58 else 39) :: two m ++ [39]).
        apply zone_two_rest; auto.
      - rewrite <- (app_nil_r (two m)). change ([39] ++ two m ++ []) with ((if false then 58 else 39) :: two m ++ []).
        apply zone_two_rest; auto.
      - rewrite <- (app_nil_r (two h)), zone_two by lia. destruct (Z.eqb_spec sh 0); [lia|reflexivity].
      - rewrite zone_two by lia. change (39 =? 39) with true. cbn match. destruct (Z.eqb_spec sh 0); [lia|reflexivity]. }
    rewrite ZE, infer_zone. reflexivity.
Qed.

Definition in_date (y m d h mi s : Z) : Prop :=
  0 <= y < 10000 /\ 1 <= m <= 12 /\ 1 <= d <= 31 /\ 0 <= h <= 23 /\ 0 <= mi <= 59 /\ 0 <= s <= 59.
Definition digits14 (y m d h mi s : Z) : list Z := four y ++ two m ++ two d ++ two h ++ two mi ++ two s.

Lemma parse_digits y m d h mi s t : 0 <= y < 10000 -> 0 <= m < 100 -> 0 <= d < 100 -> 0 <= h < 100 -> 0 <= mi < 100 -> 0 <= s < 100 ->
  parse_fields pdf_fields [] (digits14 y m d h mi s ++ t) =
    if ((1 <=? m) && (m <=? 12)) && ((1 <=? d) && (d <=? 31)) && ((0 <=? h) && (h <=? 23)) && ((0 <=? mi) && (mi <=? 59)) && ((0 <=? s) && (s <=? 59))
    then parse_fields [] [y; m; d; h; mi; s] t else None.
Proof.
  intros. unfold digits14, pdf_fields. rewrite <- !app_assoc. rewrite parse_fields_four by lia.
  rewrite parse_fields_two by lia. destruct ((1 <=? m) && (m <=? 12)); [|reflexivity].
  rewrite parse_fields_two by lia. destruct ((1 <=? d) && (d <=? 31)); [|reflexivity].
  rewrite parse_fields_two by lia. destruct ((0 <=? h) && (h <=? 23)); [|reflexivity].
  rewrite parse_fields_two by lia. destruct ((0 <=? mi) && (mi <=? 59)); [|reflexivity].
  rewrite parse_fields_two by lia. destruct ((0 <=? s) && (s <=? 59)); reflexivity.
Qed.

Lemma try_parse_D l : try_parse (bs "D:" ++ l) = parse_fields pdf_fields [] l.
Proof. reflexivity. Qed.
Lemma try_parse_digit v r : 0 <= v <= 9 -> try_parse ((48 + v) :: r) = parse_fields pdf_fields [] ((48 + v) :: r).
Proof.
  intro H. assert (C : v = 0 \/ v = 1 \/ v = 2 \/ v = 3 \/ v = 4 \/ v = 5 \/ v = 6 \/ v = 7 \/ v = 8 \/ v = 9) by lia.
  destruct C as [-> | [-> | [-> | [-> | [-> | [-> | [-> | [-> | [-> | ->]]]]]]]]]; reflexivity.
Qed.
Lemma try_parse_four y r : 0 <= y < 10000 -> try_parse (four y ++ r) = parse_fields pdf_fields [] (four y ++ r).
Proof. intro H. unfold four, two. cbn [app]. apply try_parse_digit. zdm. Qed.

Lemma conforming_read pre y m d h mi s o t : pre = bs "D:" \/ pre = [] -> in_date y m d h mi s -> zone59 o t ->
  try_parse (pre ++ digits14 y m d h mi s ++ t) = Some (zone_date [y; m; d; h; mi; s] o).
Proof.
  intros P (Y & M & D & H & MI & S) Z.
  assert (E : try_parse (pre ++ digits14 y m d h mi s ++ t) = parse_fields pdf_fields [] (digits14 y m d h mi s ++ t)).
  { destruct P as [-> | ->]; [apply try_parse_D|]. unfold digits14. cbn [app]. rewrite <- app_assoc. apply try_parse_four. lia. }
  rewrite E, parse_digits by lia. rewrite !in_range by lia. cbn [andb]. apply parse_zone, Z.
Qed.

(** ** Truncated dates *)
Lemma truncated_read pre y m d rest o t : pre = bs "D:" \/ pre = [] -> in_date y m d 0 0 0 -> zone59 o t ->
  (rest = [] \/ (exists h, 0 <= h <= 23 /\ rest = [h]) \/ (exists h mi, 0 <= h <= 23 /\ 0 <= mi <= 59 /\ rest = [h; mi])) ->
  try_parse (pre ++ four y ++ two m ++ two d ++ concat (map two rest) ++ t) = Some (zone_date ([y; m; d] ++ rest) o).
Proof.
  intros P (Y & M & D & _) Z R.
  assert (E : try_parse (pre ++ four y ++ two m ++ two d ++ concat (map two rest) ++ t) =
              parse_fields pdf_fields [] (four y ++ two m ++ two d ++ concat (map two rest) ++ t)).
  { destruct P as [-> | ->]; [apply try_parse_D|]. cbn [app]. apply try_parse_four. lia. }
  rewrite E. unfold pdf_fields. rewrite parse_fields_four by lia. rewrite parse_fields_two, in_range by lia.
  rewrite parse_fields_two, in_range by lia. cbn [app].
  destruct R as [-> | [(h & H & ->)|(h & mi & H & MI & ->)]]; cbn [map concat app].
  - apply parse_zone, Z.
  - rewrite <- ?app_assoc. cbn [app]. rewrite parse_fields_two, in_range by lia. apply parse_zone, Z.
  - rewrite <- ?app_assoc. cbn [app]. rewrite parse_fields_two, in_range by lia.
    rewrite parse_fields_two, in_range by lia. apply parse_zone, Z.
Qed.

(** ** Writing *)
Lemma to_short_id y : 0 <= y < 10000 -> to_short y = y.
Proof. intro H. unfold to_short. rewrite Z.mod_small by lia. destruct (Z.ltb_spec y (2 ^ 15)); lia. Qed.
Lemma u8_small v : 0 <= v < 256 -> u8 v = v.
Proof. intro H. unfold u8. apply Z.mod_small. lia. Qed.

Definition w3c14 (y m d h mi s : Z) : list Z :=
  four y ++ [45] ++ two m ++ [45] ++ two d ++ [84] ++ two h ++ [58] ++ two mi ++ [58] ++ two s.
Lemma month_len_31 y m : month_len y m <= 31.
Proof. unfold month_len. destruct (m =? 2); [destruct (leap y); lia|]. destruct ((m =? 4) || (m =? 6) || (m =? 9) || (m =? 11)); lia. Qed.
Lemma written w dt z y m d h mi s :
  d_secs dt + 60 * match d_off dt with Some o => o | None => 0 end = z * 86400 + h * 3600 + mi * 60 + s ->
  0 <= h <= 23 -> 0 <= mi <= 59 -> 0 <= s <= 59 -> civil z (y, m, d) -> 0 <= y < 10000 ->
  date_text w dt = (if w then w3c14 y m d h mi s else bs "D:" ++ digits14 y m d h mi s) ++ date_offset w (d_off dt).
Proof.
  intros E H MI S C Y. unfold date_text. rewrite E. cbv zeta.
  replace ((z * 86400 + h * 3600 + mi * 60 + s) / 86400) with z by zdm.
  replace (z * 86400 + h * 3600 + mi * 60 + s - z * 86400) with (h * 3600 + mi * 60 + s) by lia.
  pose proof (civil_valid _ _ C) as [V1 V2]. pose proof (month_len_31 y m).
  rewrite <- (civil_from_days _ _ C).
  replace ((h * 3600 + mi * 60 + s) / 3600) with h by zdm.
  replace ((h * 3600 + mi * 60 + s) / 60 mod 60) with mi by zdm.
  replace ((h * 3600 + mi * 60 + s) mod 60) with s by zdm.
  rewrite to_short_id, !u8_small by lia. rewrite pad4, !pad2 by lia. destruct w; reflexivity.
Qed.

Definition offset_text (w : bool) (off : option Z) : list Z :=
  match off with
  | None => []
  | Some o => if o =? 0 then [90] else
      (if 0 <? o then 43 else 45) :: two (Z.abs o / 60) ++ (if w then 58 :: two (Z.abs o mod 60) else 39 :: two (Z.abs o mod 60) ++ [39])
  end.
Lemma offset_written w off : match off with Some o => Z.abs o <= 5999 | None => True end -> date_offset w off = offset_text w off.
Proof.
  destruct off as [o|]; [|reflexivity]. intro H. unfold date_offset, offset_text. destruct (Z.eqb_spec o 0); [reflexivity|].
  cbv zeta. rewrite !pad2 by zdm. destruct w; reflexivity.
Qed.
Lemma offset_zone off : match off with Some o => Z.abs o <= 3599 | None => True end -> zone59 off (date_offset false off).
Proof.
  intro H. rewrite offset_written by (destruct off; lia). destruct off as [o|]; [|reflexivity].
  unfold zone59, offset_text. destruct (Z.eqb_spec o 0) as [->|N]; [left; auto|right].
  exists (Z.abs o / 60), (Z.abs o mod 60). split; [zdm|]. split; [zdm|].
  destruct (Z.ltb_spec 0 o); [exists 43|exists 45]; (split; [|left; reflexivity]).
  - left. split; [reflexivity|]. pose proof (Z.div_mod (Z.abs o) 60 ltac:(lia)). lia.
  - right. split; [reflexivity|]. pose proof (Z.div_mod (Z.abs o) 60 ltac:(lia)). lia.
Qed.

(** ** W3C *)
Lemma w3c_step sep lo hi fs v x r : 0 <= x < 100 -> lo <= x <= hi -> shift_char (sep :: two x ++ r) = None ->
  w3c_fields ((sep, 2%nat, lo, hi) :: fs) v (sep :: two x ++ r) = w3c_fields fs (v ++ [x]) r.
Proof.
  intros X R S. cbn [w3c_fields]. rewrite S. destruct (length v =? 5)%nat; rewrite Z.eqb_refl, fix_two, in_range by lia; reflexivity.
Qed.
Lemma w3c_step_dash lo hi fs v x r : 0 <= x < 100 -> lo <= x <= hi -> length v <> 5%nat ->
  w3c_fields ((45, 2%nat, lo, hi) :: fs) v (45 :: two x ++ r) = w3c_fields fs (v ++ [x]) r.
Proof.
  intros X R L. cbn [w3c_fields]. apply Nat.eqb_neq in L. rewrite L, Z.eqb_refl, fix_two, in_range by lia. reflexivity.
Qed.
Lemma w3c_read y m d h mi s t : in_date y m d h mi s ->
  try_parse_w3c (w3c14 y m d h mi s ++ t) = w3c_fields [] [y; m; d; h; mi; s] t.
Proof.
  intros (Y & M & D & H & MI & S). unfold w3c14. rewrite <- !app_assoc. cbn [app].
  pose proof (fix_four y (45 :: two m ++ 45 :: two d ++ 84 :: two h ++ 58 :: two mi ++ 58 :: two s ++ t) ltac:(lia)) as F.
  assert (E : forall l, parse_fix 4 0 9999 l = Some (y, skipn 4 l) -> l <> [] -> try_parse_w3c l = w3c_fields w3c_rest [y] (skipn 4 l)).
  { intros l P N. unfold try_parse_w3c. rewrite P. destruct l; [congruence|reflexivity]. }
  rewrite E; [|rewrite F; reflexivity|discriminate]. unfold four, two at 1 2. cbn [app skipn].
  unfold w3c_rest. rewrite w3c_step_dash by (cbn; lia). cbn [app]. rewrite w3c_step_dash by (cbn; lia). cbn [app].
  rewrite w3c_step by (try reflexivity; lia). cbn [app]. rewrite w3c_step by (try reflexivity; lia). cbn [app].
  rewrite w3c_step by (try reflexivity; lia). reflexivity.
Qed.
Lemma w3c_zone v off : match off with Some o => Z.abs o <= 3599 | None => True end ->
  w3c_fields [] v (date_offset true off) = Some (zone_date v off).
Proof.
  intro H. rewrite offset_written by (destruct off; lia). destruct off as [o|]; unfold offset_text, zone_date.
  2:{ cbn [w3c_fields shift_char]. rewrite infer_none. replace (secs_of v - 60 * 0) with (secs_of v) by lia. reflexivity. }
  destruct (Z.eqb_spec o 0) as [->|N].
  - cbn [w3c_fields shift_char]. change (90 =? 43) with false. change (90 =? 45) with false. change (90 =? 90) with true.
    cbn [zone]. rewrite infer_zone. reflexivity.
  - pose proof (zone_two_rest true (Z.sgn o) (Z.abs o / 60) (Z.abs o mod 60) [] ltac:(zdm) ltac:(zdm) ltac:(lia) ltac:(auto)) as ZT.
    rewrite app_nil_r in ZT.
    assert (SC : forall l, shift_char ((if 0 <? o then 43 else 45) :: l) = Some (Z.sgn o, l)).
    { intro l. destruct (Z.ltb_spec 0 o); [rewrite Z.sgn_pos by lia|rewrite Z.sgn_neg by lia]; reflexivity. }
    cbn [w3c_fields]. rewrite SC, ZT, infer_zone.
    replace (Z.sgn o * (Z.abs o / 60 * 60 + Z.abs o mod 60)) with o; [reflexivity|].
    pose proof (Z.div_mod (Z.abs o) 60 ltac:(lia)). destruct (Z.lt_trichotomy o 0) as [L|[L|L]]; [rewrite Z.sgn_neg by lia| |rewrite Z.sgn_pos by lia]; lia.
Qed.

(** ** Round trip *)
Lemma local_parts w : exists z h mi s, w = z * 86400 + h * 3600 + mi * 60 + s /\ 0 <= h <= 23 /\ 0 <= mi <= 59 /\ 0 <= s <= 59 /\ z = w / 86400.
Proof. exists (w / 86400), (w mod 86400 / 3600), (w mod 3600 / 60), (w mod 60). zdm. Qed.
Lemma secs_civil z y m d h mi s : civil z (y, m, d) -> secs_of [y; m; d; h; mi; s] = z * 86400 + h * 3600 + mi * 60 + s.
Proof.
  intro C. unfold secs_of, infer. cbn [nth d_secs]. destruct (from_days_facts z) as (T & _ & _).
  rewrite <- (civil_from_days _ _ C) in T. cbn [to_days3] in T. rewrite T. reflexivity.
Qed.
Lemma civil_range z y m d : civil z (y, m, d) -> -719528 <= z <= 2932896 -> 0 <= y < 10000.
Proof. intros C. apply (year_range z y m d). symmetry. apply civil_from_days, C. Qed.
Lemma in_date_of z y m d h mi s : civil z (y, m, d) -> -719528 <= z <= 2932896 -> 0 <= h <= 23 -> 0 <= mi <= 59 -> 0 <= s <= 59 -> in_date y m d h mi s.
Proof.
  intros C Z H MI S. pose proof (civil_range _ _ _ _ C Z). destruct (civil_valid _ _ C) as [V1 V2]. pose proof (month_len_31 y m).
  unfold in_date. lia.
Qed.

Lemma round_trip secs off :
  -62167219200 <= secs + 60 * match off with Some o => o | None => 0 end <= 253402300799 ->
  match off with Some o => Z.abs o <= 3599 | None => True end ->
  try_parse (date_text false (mk_date secs off)) = Some (mk_date secs off) /\
  try_parse_w3c (date_text true (mk_date secs off)) = Some (mk_date secs off).
Proof.
  intros R O. destruct (local_parts (secs + 60 * match off with Some o => o | None => 0 end)) as (z & h & mi & s & E & H & MI & S & ZE).
  assert (Z : -719528 <= z <= 2932896) by (rewrite ZE; zdm).
  pose proof (from_days_civil z) as C. destruct (from_days z) as [[y m] d].
  pose proof (in_date_of _ _ _ _ h mi s C Z H MI S) as I. pose proof (civil_range _ _ _ _ C Z) as Y.
  assert (ZD : zone_date [y; m; d; h; mi; s] off = mk_date secs off).
  { unfold zone_date. rewrite (secs_civil z) by exact C. rewrite <- E. set (q := 60 * _). replace (secs + q - q) with secs by lia. reflexivity. }
  rewrite (written false (mk_date secs off) z y m d h mi s E H MI S C Y).
  rewrite (written true (mk_date secs off) z y m d h mi s E H MI S C Y). cbn [d_off]. split.
  - rewrite <- app_assoc, (conforming_read (bs "D:") y m d h mi s off); [rewrite ZD; reflexivity|auto|exact I|apply offset_zone, O].
  - rewrite w3c_read by exact I. rewrite w3c_zone by exact O. rewrite ZD. reflexivity.
Qed.

Lemma conforming_instant pre y m d h mi s o t z : pre = bs "D:" \/ pre = [] -> civil z (y, m, d) -> 0 <= y <= 9999 ->
  0 <= h <= 23 -> 0 <= mi <= 59 -> 0 <= s <= 59 -> pdf_zone o t ->
  try_parse (pre ++ four y ++ two m ++ two d ++ two h ++ two mi ++ two s ++ t) =
    Some (mk_date (z * 86400 + h * 3600 + mi * 60 + s - 60 * match o with Some o => o | None => 0 end) o).
Proof.
  intros P C Y H MI S Z. destruct (civil_valid _ _ C) as [V1 V2]. pose proof (month_len_31 y m).
  pose proof (conforming_read pre y m d h mi s o t P ltac:(unfold in_date; lia) (pdf_zone59 _ _ Z)) as R.
  unfold digits14 in R. rewrite <- !app_assoc in R. rewrite R. unfold zone_date. rewrite (secs_civil z) by exact C. reflexivity.
Qed.
Lemma secs_pad v : secs_of (v ++ [0]) = secs_of v.
Proof.
  unfold secs_of, infer. cbn [d_secs].
  assert (N : forall k, nth k (v ++ [0]) 0 = nth k v 0).
  { induction v as [|x v IH]; intros [|k]; try reflexivity; [destruct k; reflexivity|apply IH]. }
  rewrite !N. reflexivity.
Qed.
Lemma truncated_instant pre y m d rest o t z : pre = bs "D:" \/ pre = [] -> civil z (y, m, d) -> 0 <= y <= 9999 -> pdf_zone o t ->
  (rest = [] \/ (exists h, 0 <= h <= 23 /\ rest = [h]) \/ (exists h mi, 0 <= h <= 23 /\ 0 <= mi <= 59 /\ rest = [h; mi])) ->
  try_parse (pre ++ four y ++ two m ++ two d ++ concat (map two rest) ++ t) =
    Some (mk_date (z * 86400 + nth 0 rest 0 * 3600 + nth 1 rest 0 * 60 - 60 * match o with Some o => o | None => 0 end) o).
Proof.
  intros P C Y Z R. destruct (civil_valid _ _ C) as [V1 V2]. pose proof (month_len_31 y m).
  rewrite (truncated_read pre y m d rest o t P ltac:(unfold in_date; lia) (pdf_zone59 _ _ Z) R). unfold zone_date.
  assert (E : secs_of ([y; m; d] ++ rest) = z * 86400 + nth 0 rest 0 * 3600 + nth 1 rest 0 * 60).
  { destruct R as [-> | [(h & _ & ->)|(h & mi & _ & _ & ->)]]; cbn [app nth].
    - rewrite <- secs_pad, <- secs_pad, <- secs_pad. cbn [app]. rewrite (secs_civil z) by exact C. lia.
    - rewrite <- secs_pad, <- secs_pad. cbn [app]. rewrite (secs_civil z) by exact C. lia.
    - rewrite <- secs_pad. cbn [app]. rewrite (secs_civil z) by exact C. lia. }
  rewrite E. reflexivity.
Qed.

Lemma digits_accepted pre y m d h mi s : pre = bs "D:" \/ pre = [] ->
  0 <= y < 10000 -> 0 <= m < 100 -> 0 <= d < 100 -> 0 <= h < 100 -> 0 <= mi < 100 -> 0 <= s < 100 ->
  try_parse (pre ++ four y ++ two m ++ two d ++ two h ++ two mi ++ two s) <> None <->
  1 <= m <= 12 /\ 1 <= d <= 31 /\ h <= 23 /\ mi <= 59 /\ s <= 59.
Proof.
  intros P Y M D H MI S.
  assert (E : try_parse (pre ++ four y ++ two m ++ two d ++ two h ++ two mi ++ two s) =
              parse_fields pdf_fields [] (digits14 y m d h mi s ++ [])).
  { rewrite app_nil_r. destruct P as [-> | ->]; [apply try_parse_D|]. cbn [app]. apply try_parse_four. lia. }
  rewrite E, parse_digits by lia. rewrite parse_end.
  destruct (Z.leb_spec 1 m), (Z.leb_spec m 12), (Z.leb_spec 1 d), (Z.leb_spec d 31), (Z.leb_spec 0 h), (Z.leb_spec h 23),
    (Z.leb_spec 0 mi), (Z.leb_spec mi 59), (Z.leb_spec 0 s), (Z.leb_spec s 59); cbn [andb];
    (split; intro Q; [first [lia | exfalso; apply Q; reflexivity] | first [discriminate | exfalso; lia]]).
Qed.
