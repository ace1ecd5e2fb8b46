(** Lemmas about the boxes of pages and forms made of them *)
From Coq Require Import String QArith Lqa.
From Verif Require Import Base ChainProofs TokModel DictProofs OwnModel OwnSpec OwnProofs ListModel PageModel PageProofs RectModel LinkSpec LinkModel LinkProofs AnnotSpec AnnotModel AnnotProofs AnnotPropLemmas.
From Verif Require Import TokProofs CMapSpec ContentsModel ContentsSpec BoxSpec BoxModel.
Local Open Scope Z_scope.

(** ** Boxes *)
Lemma box_read l a b c e : rectangle l a b c e -> exists q, box_array l = Ok q /\ spans (rl q) (rb q) (rw q) (rh q) a b c e.
Proof.
  intros RC. unfold box_array. destruct RC as [oa ob oc od a b c e NA NB NC ND]. cbn [length Nat.eqb reals].
  destruct (get_real_is _ _ NA) as (da & -> & QA). destruct (get_real_is _ _ NB) as (db' & -> & QB). destruct (get_real_is _ _ NC) as (dc & -> & QC).
  destruct (get_real_is _ _ ND) as (dd & -> & QD). cbn [bind from_array]. eexists. split; [reflexivity|].
  destruct (corners (dq da) (dq db') (dq dc) (dq dd)) as (C1 & C2). set (q := from_corners _ _ _ _) in *. clearbody q.
  rewrite <- dq_val in *. unfold spans, ends in *. split; (split; [|lra]).
  - destruct C1 as ([(E1 & E2)|(E1 & E2)] & _); [left|right]; split; lra.
  - destruct C2 as ([(E1 & E2)|(E1 & E2)] & _); [left|right]; split; lra.
Qed.
Lemma media_read h d a b c e : media_is h d a b c e -> exists n q, (forall fuel, (n <= fuel)%nat -> media_box fuel h d = Ok q) /\ spans (rl q) (rb q) (rw q) (rh q) a b c e.
Proof.
  intros [l a' b' c' e' I R]. destruct (box_read _ _ _ _ _ R) as (q & Q & S). destruct (inherits_found _ _ _ _ I) as (n & N). exists n, q. split; [|exact S].
  intros fuel F. unfold media_box. rewrite N by exact F. exact Q.
Qed.
Lemma crop_read h d a b c e : crop_is h d a b c e -> exists n q, (forall fuel, (n <= fuel)%nat -> crop_box fuel h d = Ok q) /\ spans (rl q) (rb q) (rw q) (rh q) a b c e.
Proof.
  intros [l a' b' c' e' I R|a' b' c' e' I R].
  - destruct (box_read _ _ _ _ _ R) as (q & Q & S). destruct (inherits_found _ _ _ _ I) as (n & N). exists n, q. split; [|exact S].
    intros fuel F. unfold crop_box. rewrite N by exact F. exact Q.
  - destruct (media_read _ _ _ _ _ _ R) as (m & q & Q & S). destruct (inherits_found _ _ _ _ I) as (n & N). exists (n + m)%nat, q. split; [|exact S].
    intros fuel F. unfold crop_box. rewrite N by lia. cbn [bind]. apply Q. lia.
Qed.
Lemma other_read h k d a b c e : other_is h k d a b c e -> (exists v, entry h d k v) \/ inherits h k d None ->
  exists n q, (forall fuel, (n <= fuel)%nat -> other_box fuel h k d = Ok q) /\ spans (rl q) (rb q) (rw q) (rh q) a b c e.
Proof.
  intros [l a' b' c' e' I R|a' b' c' e' I R] C.
  - destruct (box_read _ _ _ _ _ R) as (q & Q & S). apply inh_here in I. destruct (inherits_found _ _ _ _ I) as (n & N). exists n, q. split; [|exact S].
    intros fuel F. unfold other_box. rewrite N by exact F. exact Q.
  - destruct C as [(v & V)|C]; [destruct (I v V)|]. destruct (crop_read _ _ _ _ _ _ R) as (m & q & Q & S). destruct (inherits_found _ _ _ _ C) as (n & N). exists (n + m)%nat, q. split; [|exact S].
    intros fuel F. unfold other_box. rewrite N by lia. cbn [bind]. apply Q. lia.
Qed.
Lemma other_inherited h k d l a b c e : (forall v, ~ entry h d k v) -> inherits h k d (Some (OArr l)) -> rectangle l a b c e ->
  exists n q, (forall fuel, (n <= fuel)%nat -> other_box fuel h k d = Ok q) /\ spans (rl q) (rb q) (rw q) (rh q) a b c e.
Proof.
  intros _ I R. destruct (box_read _ _ _ _ _ R) as (q & Q & S). destruct (inherits_found _ _ _ _ I) as (n & N). exists n, q. split; [|exact S].
  intros fuel F. unfold other_box. rewrite N by exact F. exact Q.
Qed.
Lemma get_entry h d k o : dict_get k d = Some o -> (forall n g, o <> ORef n g) -> entry h d k o.
Proof. intros G N. apply dict_find_entry. unfold dict_find, get_key. rewrite G. destruct o; try reflexivity. destruct (N _ _ eq_refl). Qed.
Lemma no_entry h d k : dict_get k d = None -> forall v, ~ entry h d k v.
Proof. intros G. apply OwnProofs.find_none. unfold dict_find, get_key. rewrite G. reflexivity. Qed.
Lemma set_then k h r d q : h r = Some (ODict d) -> exists h' d', set_box h r k q = Ok h' /\ h' r = Some (ODict d') /\ only [k] d d' /\ only_at r h h' /\
  entry h' d' k (OArr (rect_array q)) /\ rectangle (rect_array q) (val (dl q)) (val (db q)) (val (dl q) + val (dw q))%Q (val (db q) + val (dh q))%Q.
Proof.
  intros R. destruct (key_set h r d k (OArr (rect_array q)) R) as (h' & E & R' & O & K). exists h', (add_key k (OArr (rect_array q)) d).
  split; [exact E|]. split; [exact R'|]. split; [exact K|]. split; [exact O|]. split; [|apply rect_array_is].
  apply get_entry; [apply get_add_same|discriminate].
Qed.

(** ** Rotation *)
Lemma int_id z : - 2 ^ 31 <= z < 2 ^ 31 -> int_of z = z.
Proof.
  intros B. unfold int_of, to_int, u32. destruct (Z_lt_le_dec z 0).
  - rewrite <- (Z.mod_unique z (2 ^ 32) (-1) (z + 2 ^ 32)) by lia. destruct (Z.ltb_spec (z + 2 ^ 32) (2 ^ 31)); lia.
  - rewrite Z.mod_small by lia. destruct (Z.ltb_spec z (2 ^ 31)); lia.
Qed.
Lemma rotation_read h d z : inherits h (bs "Rotate") d (Some (ONum z)) -> - 2 ^ 31 <= z < 2 ^ 31 -> exists n, forall fuel, (n <= fuel)%nat -> get_rotation fuel h d = Ok z.
Proof.
  intros I B. destruct (inherits_found _ _ _ _ I) as (n & N). exists n. intros fuel F. unfold get_rotation. rewrite N by exact F. cbn [bind]. rewrite int_id by exact B. reflexivity.
Qed.
Lemma rotation_none h d : inherits h (bs "Rotate") d None -> exists n, forall fuel, (n <= fuel)%nat -> get_rotation fuel h d = Ok 0.
Proof. intros I. destruct (inherits_found _ _ _ _ I) as (n & N). exists n. intros fuel F. unfold get_rotation. rewrite N by exact F. reflexivity. Qed.
Lemma rotated_read h d z : rotated h d z -> exists n, forall fuel, (n <= fuel)%nat -> get_rotation fuel h d = Ok z.
Proof. intros [r I B|I]; [apply rotation_read; [exact I|lia]|apply rotation_none, I]. Qed.
Lemma angle_read fuel h d z : get_rotation fuel h d = Ok z ->
  (has_rotation fuel h d = Ok None /\ z mod 360 = 0) \/ exists t, has_rotation fuel h d = Ok (Some t) /\ same_turn z t /\ -360 < t < 360 /\ t <> 0.
Proof.
  intros G. unfold has_rotation. rewrite G. cbn [bind]. pose proof (Z.quot_rem z 360 ltac:(lia)) as E. pose proof (Z.rem_bound_abs z 360 ltac:(lia)) as B.
  set (n := z - Z.quot z 360 * 360). assert (En : n = Z.rem z 360) by (unfold n; lia).
  destruct (Z.eqb_spec n 0) as [N|N].
  - left. split; [reflexivity|]. apply Z.mod_divide; [lia|]. exists (Z.quot z 360). lia.
  - right. exists (- n). split; [reflexivity|]. split; [exists (Z.quot z 360); unfold n; lia|]. lia.
Qed.

(** ** Contents *)
Lemma stops_app k b : stops k -> stops b -> stops (k ++ b).
Proof.
  destruct k as [|c r]; intros K B; [exact B|]. cbn [app stops] in *. destruct K as [K|(K1 & K2 & K3)]; [left; exact K|right].
  split; [exact K1|]. split; [exact K2|]. intros E. apply app_eq_nil in E. apply K3, E.
Qed.
Lemma values_more os t k b : values_text os t k -> stops b -> values_text os (t ++ b) (k ++ b).
Proof.
  intros V B. induction V as [k|ws o t k os k' W (fl & F1 & F2 & F3 & F4 & F5) V IH]; [constructor|]. rewrite <- !app_assoc. constructor; [exact W| |exact IH].
  exists fl. repeat (split; [assumption|]). intros N. apply stops_app; [apply F5, N|exact B].
Qed.
Lemma word_more n t k b : word_text n t k -> stops b -> word_text n (t ++ b) (k ++ b).
Proof.
  intros (ws & -> & W & N & S) B. exists ws. split; [rewrite <- !app_assoc; reflexivity|]. repeat (split; [assumption|]). apply stops_app; assumption.
Qed.
Lemma word_lead n t k ws : word_text n t k -> blank ws -> word_text n (ws ++ t) k.
Proof. intros (w & -> & W & N & S) B. exists (ws ++ w). split; [rewrite <- app_assoc; reflexivity|]. split; [apply Forall_app; split; assumption|]. split; assumption. Qed.
Lemma program_lead is t ws : program_text is t -> blank ws -> program_text is (ws ++ t).
Proof.
  intros P B. inversion P; subst.
  - constructor. apply Forall_app. split; assumption.
  - match goal with [ V : values_text _ _ _ |- _ ] => inversion V; subst end.
    + eapply pt_op; [constructor|apply word_lead; eassumption|assumption|assumption].
    + eapply pt_op; [|eassumption|assumption|assumption]. rewrite app_assoc. constructor; [apply Forall_app; split; assumption|assumption|assumption].
  - eapply pt_image; [apply word_lead; eassumption|eassumption..].
Qed.
Lemma program_more is t js b : program_text is t -> program_text js b -> stops b -> program_text (is ++ js) (t ++ b).
Proof.
  intros P Q B. induction P as [ws W|args n t t1 k is V W N P IH|es d data t t1 t2 c w k is W1 So Pe V W2 Cw Ww N1 N2 P IH]; cbn [app].
  - apply program_lead; assumption.
  - eapply pt_op; [eapply values_more; eassumption|eapply word_more; eassumption|exact N|exact IH].
  - apply (word_more _ _ _ b) in W2; [|exact B]. cbn [app] in W2. rewrite <- app_assoc in W2. cbn [app] in W2.
    eapply pt_image; [eapply word_more; eassumption|exact So|exact Pe|eapply values_more; eassumption|exact W2|assumption..].
Qed.
Lemma ended_all l ls : Forall2 ended l ls -> program_text (concat l) (concat ls).
Proof.
  induction 1 as [|is b l ls (a & w & -> & W & P) _ IH]; cbn [concat]; [constructor; constructor|]. rewrite <- app_assoc. cbn [app].
  apply program_more; [exact P| |left; exact W]. apply (program_lead _ _ [w]); [exact IH|constructor; [exact W|constructor]].
Qed.
(** As a page is read: divided by line feeds *)
Lemma ended_joined l ls : Forall2 ended l ls -> program_text (concat l) (joined (texts (map Some ls))).
Proof.
  induction 1 as [|is b l ls (a & w & -> & W & P) R IH]; [constructor; constructor|]. cbn [concat map]. unfold texts in *. cbn [flat_map].
  assert (NE : exists c r, a ++ [w] = c :: r) by (destruct a; eexists; eexists; reflexivity). destruct NE as (c & r & E). rewrite E. cbn [app]. rewrite <- E.
  assert (Pw : forall js k, program_text js k -> program_text (is ++ js) ((a ++ [w]) ++ k)).
  { intros js k K. rewrite <- app_assoc. cbn [app]. apply program_more; [exact P| |left; exact W]. apply (program_lead _ _ [w]); [exact K|constructor; [exact W|constructor]]. }
  set (rest := flat_map _ _) in *. cbn [joined]. destruct rest as [|x y] eqn:X.
  - specialize (Pw (concat l) [] IH). rewrite app_nil_r in Pw. exact Pw.
  - apply Pw. apply (program_lead _ _ [10]); [exact IH|constructor; [reflexivity|constructor]].
Qed.
Lemma leads_found h st r b : leads h st r b -> exists n, forall fuel, (n <= fuel)%nat -> stream_of fuel h st r = Ok b.
Proof.
  induction 1 as [r o b H N S|r n g b H _ (m & M)].
  - exists 1%nat. intros [|f] F; [lia|]. cbn [stream_of]. rewrite H. destruct o; try (rewrite S; reflexivity). destruct (N _ _ eq_refl).
  - exists (S m). intros [|f] F; [lia|]. cbn [stream_of]. rewrite H. apply M. lia.
Qed.
Lemma joined_found h st text rs ls : Forall2 (leads h st) rs ls -> exists n, forall fuel, (n <= fuel)%nat -> joined_streams fuel h st text (map (fun r => ORef (fst r) (snd r)) rs) = Ok (concat ls).
Proof.
  induction 1 as [|r b rs ls L _ (n & N)]; [exists 0%nat; reflexivity|]. destruct (leads_found _ _ _ _ L) as (m & M). exists (n + m)%nat. intros fuel F.
  cbn [map joined_streams]. rewrite <- surjective_pairing, M by lia. cbn [bind]. rewrite N by lia. reflexivity.
Qed.
Lemma loop_runs h st r fuel : h r = Some (ORef (fst r) (snd r)) -> stream_of fuel h st r = Fuel.
Proof. intros H. induction fuel as [|f IH]; [reflexivity|]. cbn [stream_of]. rewrite H, <- surjective_pairing. exact IH. Qed.

(** ** Place *)
Lemma turn_cases r : -360 <= r < 360 -> (if r <? 0 then 360 + r else r) = r mod 360.
Proof.
  intros B. destruct (Z.ltb_spec r 0); [|rewrite Z.mod_small; lia]. apply Z.mod_unique with (q := -1); lia.
Qed.
Lemma matrix_places turn q r u v : exact turn -> 0 <= r < 360 -> forall p', placed (rl q) (rb q) (rw q) (rh q) r (u, v) p' ->
  (fst (image (form_matrix turn r (turned_rect r q)) (u, v)) == fst p' /\ snd (image (form_matrix turn r (turned_rect r q)) (u, v)) == snd p')%Q.
Proof.
  intros X B p' P. destruct (X (- r)) as (X0 & X1 & X2 & X3). inversion P; subst; rewrite Z.mod_small in * by lia; subst r.
  - rewrite X0 in * by reflexivity. unfold form_matrix. rewrite X0 by reflexivity. unfold image, turned_rect. cbn. split; ring.
  - unfold form_matrix. rewrite X3 by reflexivity. unfold image, turned_rect. cbn. split; ring.
  - unfold form_matrix. rewrite X2 by reflexivity. unfold image, turned_rect. cbn. split; ring.
  - unfold form_matrix. rewrite X1 by reflexivity. unfold image, turned_rect. cbn. split; ring.
Qed.

(** ** Size *)
Definition far (i : nat) (n : Z) (s e : Q) (j : nat) : Q := if Nat.eqb i j then (s + inject_Z n)%Q else e.
Lemma set_end_is h x l a b c e i n : rectangle l a b c e -> (i < 2)%nat -> exists l', set_end h x l i n = Ok (write h x (OArr l')) /\ rectangle l' a b (far i n a c 0) (far i n b e 1).
Proof.
  intros [oa ob oc od a' b' c' e' NA NB NC ND] I.
  assert (NV : forall s q, (val s == q)%Q -> number_is (real (dadd (n, 0%nat) s)) (q + inject_Z n)%Q).
  { intros s q E. apply real_is_eq. rewrite val_add, E. unfold val at 1. cbn [fst snd]. change (10 ^ Z.of_nat 0) with 1. field. }
  destruct i as [|[|i]]; [| |lia]; unfold set_end, real_at, at_; cbn [nth_error bind].
  - destruct (get_real_is _ _ NA) as (s & -> & E). cbn. eexists. split; [reflexivity|]. constructor; try assumption. apply NV, E.
  - destruct (get_real_is _ _ NB) as (s & -> & E). cbn. eexists. split; [reflexivity|]. constructor; try assumption. apply NV, E.
Qed.
Lemma own_loc fuel h r d k l : h r = Some (ODict d) -> dict_get k d = Some (OArr l) -> find_parent_loc (S fuel) h (At r) k = Ok (Some (LinkModel.In (At r) k)).
Proof. intros R G. cbn [find_parent_loc]. unfold find_loc. cbn [read]. rewrite R. unfold get_key. rewrite G. reflexivity. Qed.
Lemma own_read h r d k l : h r = Some (ODict d) -> dict_get k d = Some (OArr l) -> read h (LinkModel.In (At r) k) = Some (OArr l).
Proof. intros R G. cbn [read]. rewrite R. exact G. Qed.
Lemma up_loc fuel h r d n g pd k l : h r = Some (ODict d) -> dict_get k d = None -> dict_get (bs "Parent") d = Some (ORef n g) -> h (n, g) = Some (ODict pd) -> dict_get k pd = Some (OArr l) ->
  find_parent_loc (S (S fuel)) h (At r) k = Ok (Some (LinkModel.In (At (n, g)) k)).
Proof.
  intros R G P H Gp. cbn [find_parent_loc]. unfold find_loc. cbn [read]. rewrite R. unfold get_key. rewrite G, P, H. cbn [read]. rewrite H. unfold get_key. rewrite Gp. reflexivity.
Qed.
Lemma get_add_ne k k' (v : obj) d : k' <> k -> dict_get k' (add_key k v d) = dict_get k' d.
Proof. intros N. apply (only_add [k] k v d (or_introl eq_refl)). intros [E|[]]. congruence. Qed.
Lemma own_size fuel h r d la lb a b c e a' b' c' e' i n : h r = Some (ODict d) -> dict_get (bs "MediaBox") d = Some (OArr la) -> dict_get (bs "CropBox") d = Some (OArr lb) ->
  rectangle la a b c e -> rectangle lb a' b' c' e' -> (i < 2)%nat ->
  exists h' d' la' lb', set_size (S fuel) h r i n = Ok (h', true) /\ h' r = Some (ODict d') /\ only_at r h h' /\ only [bs "MediaBox"; bs "CropBox"] d d' /\
    dict_get (bs "MediaBox") d' = Some (OArr la') /\ rectangle la' a b (far i n a c 0) (far i n b e 1) /\
    dict_get (bs "CropBox") d' = Some (OArr lb') /\ rectangle lb' a' b' (far i n a' c' 0) (far i n b' e' 1).
Proof.
  intros R GA GB RA RB I. unfold set_size. rewrite (own_loc fuel h r d _ la R GA). cbn [bind]. rewrite (own_read h r d _ la R GA).
  destruct (set_end_is h (LinkModel.In (At r) (bs "MediaBox")) la a b c e i n RA I) as (la' & -> & RA'). cbn [bind]. cbn [write read]. rewrite R.
  set (d1 := add_key (bs "MediaBox") (OArr la') d). set (h1 := PageModel.set r (Some (ODict d1)) h).
  assert (R1 : h1 r = Some (ODict d1)) by apply set_same. assert (GB1 : dict_get (bs "CropBox") d1 = Some (OArr lb)) by (unfold d1; rewrite get_add_ne by discriminate; exact GB).
  rewrite (own_loc fuel h1 r d1 _ lb R1 GB1). cbn [bind]. rewrite (own_read h1 r d1 _ lb R1 GB1).
  destruct (set_end_is h1 (LinkModel.In (At r) (bs "CropBox")) lb a' b' c' e' i n RB I) as (lb' & -> & RB'). cbn [bind]. cbn [write read]. rewrite R1.
  exists (PageModel.set r (Some (ODict (add_key (bs "CropBox") (OArr lb') d1))) h1), (add_key (bs "CropBox") (OArr lb') d1), la', lb'.
  split; [reflexivity|]. split; [apply set_same|]. split; [intros q N; rewrite set_other by exact N; apply set_other, N|].
  split; [intros k N; rewrite get_add_ne by (intros ->; apply N; right; left; reflexivity); apply get_add_ne; intros ->; apply N; left; reflexivity|].
  split; [rewrite get_add_ne by discriminate; apply get_add_same|]. split; [exact RA'|]. split; [apply get_add_same|exact RB'].
Qed.
Lemma no_crop fuel h r d la a b c e i n : h r = Some (ODict d) -> dict_get (bs "MediaBox") d = Some (OArr la) -> dict_get (bs "CropBox") d = None -> dict_get (bs "Parent") d = None ->
  rectangle la a b c e -> (i < 2)%nat ->
  exists h' d' la', set_size (S fuel) h r i n = Ok (h', false) /\ h' r = Some (ODict d') /\ dict_get (bs "MediaBox") d' = Some (OArr la') /\ rectangle la' a b (far i n a c 0) (far i n b e 1).
Proof.
  intros R GA GB P RA I. unfold set_size. rewrite (own_loc fuel h r d _ la R GA). cbn [bind]. rewrite (own_read h r d _ la R GA).
  destruct (set_end_is h (LinkModel.In (At r) (bs "MediaBox")) la a b c e i n RA I) as (la' & -> & RA'). cbn [bind]. cbn [write read]. rewrite R.
  set (d1 := add_key (bs "MediaBox") (OArr la') d). set (h1 := PageModel.set r (Some (ODict d1)) h).
  assert (R1 : h1 r = Some (ODict d1)) by apply set_same. assert (GB1 : dict_get (bs "CropBox") d1 = None) by (unfold d1; rewrite get_add_ne by discriminate; exact GB).
  assert (P1 : dict_get (bs "Parent") d1 = None) by (unfold d1; rewrite get_add_ne by discriminate; exact P).
  cbn [find_parent_loc]. unfold find_loc. cbn [read]. rewrite R1. unfold get_key. rewrite GB1, P1. cbn [bind].
  exists h1, d1, la'. split; [reflexivity|]. split; [exact R1|]. split; [apply get_add_same|exact RA'].
Qed.
Lemma parent_size fuel h r d n g pd la lb a b c e a' b' c' e' i w : h r = Some (ODict d) -> r <> (n, g) -> dict_get (bs "MediaBox") d = None -> dict_get (bs "CropBox") d = None ->
  dict_get (bs "Parent") d = Some (ORef n g) -> h (n, g) = Some (ODict pd) -> dict_get (bs "MediaBox") pd = Some (OArr la) -> dict_get (bs "CropBox") pd = Some (OArr lb) ->
  rectangle la a b c e -> rectangle lb a' b' c' e' -> (i < 2)%nat ->
  exists h' pd' la', set_size (S (S fuel)) h r i w = Ok (h', true) /\ h' (n, g) = Some (ODict pd') /\ only_at (n, g) h h' /\
    dict_get (bs "MediaBox") pd' = Some (OArr la') /\ rectangle la' a b (far i w a c 0) (far i w b e 1).
Proof.
  intros R NE GA GB P H GPA GPB RA RB I. unfold set_size. rewrite (up_loc fuel h r d n g pd _ la R GA P H GPA). cbn [bind]. rewrite (own_read h (n, g) pd _ la H GPA).
  destruct (set_end_is h (LinkModel.In (At (n, g)) (bs "MediaBox")) la a b c e i w RA I) as (la' & -> & RA'). cbn [bind]. cbn [write read]. rewrite H.
  set (d1 := add_key (bs "MediaBox") (OArr la') pd). set (h1 := PageModel.set (n, g) (Some (ODict d1)) h).
  assert (H1 : h1 (n, g) = Some (ODict d1)) by apply set_same. assert (GB1 : dict_get (bs "CropBox") d1 = Some (OArr lb)) by (unfold d1; rewrite get_add_ne by discriminate; exact GPB).
  assert (R1 : h1 r = Some (ODict d)) by (unfold h1; rewrite set_other by exact NE; exact R).
  rewrite (up_loc fuel h1 r d n g d1 _ lb R1 GB P H1 GB1). cbn [bind]. rewrite (own_read h1 (n, g) d1 _ lb H1 GB1).
  destruct (set_end_is h1 (LinkModel.In (At (n, g)) (bs "CropBox")) lb a' b' c' e' i w RB I) as (lb' & -> & RB'). cbn [bind]. cbn [write read]. rewrite H1.
  exists (PageModel.set (n, g) (Some (ODict (add_key (bs "CropBox") (OArr lb') d1))) h1), (add_key (bs "CropBox") (OArr lb') d1), la'.
  split; [reflexivity|]. split; [apply set_same|]. split; [intros q N; rewrite set_other by exact N; apply set_other, N|].
  split; [rewrite get_add_ne by discriminate; apply get_add_same|exact RA'].
Qed.
