(** Property C166: copies and moved objects have the value and the data of what they were made of *)
From Coq Require Import String.
From Verif Require Import Base TokModel DictProofs FilterModel OwnModel ListModel StreamModel StreamSpec StreamProofs StreamPropLemmas ObjCopyModel ObjCopySpec.
Local Open Scope Z_scope.

Lemma upd_same i c st : upd i c st i = c.
Proof. unfold upd. rewrite Nat.eqb_refl. reflexivity. Qed.
Lemma upd_other i c st k : k <> i -> upd i c st k = st k.
Proof. intros N. unfold upd. rewrite (proj2 (Nat.eqb_neq k i) N). reflexivity. Qed.
Lemma put_val_at i v st c : st i = Some c -> put_val i v st i = Some (mk_cell v (c_str c)).
Proof. intros E. unfold put_val. rewrite E. apply upd_same. Qed.
Lemma put_val_other i v st k : k <> i -> put_val i v st k = st k.
Proof. intros N. unfold put_val. destruct (st i); [apply upd_other, N|reflexivity]. Qed.
Lemma put_str_at i s st c : st i = Some c -> put_str i s st i = Some (mk_cell (c_val c) s).
Proof. intros E. unfold put_str. rewrite E. apply upd_same. Qed.
Lemma put_str_other i s st k : k <> i -> put_str i s st k = st k.
Proof. intros N. unfold put_str. destruct (st i); [apply upd_other, N|reflexivity]. Qed.

(** Reading an object whose stream is its own is reading its stream *)
Lemma read_own z look n raw st i d s : st i = Some (mk_cell (ODict d) (Some s)) -> s_par s = i ->
  read z look n raw st i = do x <- read_stream z look n raw (mk_sobj d (s_buf s) (s_flt s)); Ok (Some x).
Proof.
  intros E P. unfold read. rewrite E. cbn [c_str]. destruct (raw || match s_flt s with [] => true | _ => false end) eqn:R.
  - unfold read_stream, open_stream. cbn [sfilters]. rewrite R. reflexivity.
  - unfold dict_of. rewrite P, E. reflexivity.
Qed.
(** Copying between objects whose streams are their own *)
Lemma copied look st i j d e s s0 : i <> j -> st i = Some (mk_cell (ODict d) s0) -> (forall x, s0 = Some x -> s_par x = i) ->
  st j = Some (mk_cell (ODict e) (Some s)) -> s_par s = j ->
  exists st', copy_stream_from look st i j = (st', Ok tt) /\
  st' i = Some (mk_cell (ODict (sdict (copy_stream look (mk_sobj d [] []) (mk_sobj e (s_buf s) (s_flt s))))) (Some (mk_strm i (s_buf s) (s_flt s)))) /\
  forall k, k <> i -> st' k = st k.
Proof.
  intros N A P B Q. unfold copy_stream_from. rewrite B. cbn [c_str].
  assert (X : exists b t, ensure_stream st i = Ok (mk_strm i b t)).
  { unfold ensure_stream. rewrite A. cbn [c_str c_val]. destruct s0 as [x|]; [|exists [], []; reflexivity].
    exists (s_buf x), (s_flt x). rewrite <- (P x eq_refl) at 1. destruct x; reflexivity. }
  destruct X as (b & t & ->). cbn [on s_par s_flt]. set (st1 := put_str i _ st).
  assert (A1 : st1 i = Some (mk_cell (ODict d) (Some (mk_strm i (s_buf s) t)))) by (unfold st1; rewrite (put_str_at i _ st _ A); reflexivity).
  assert (O1 : forall k, k <> i -> st1 k = st k) by (intros k K; apply put_str_other, K).
  unfold dict_of at 1. rewrite A1. cbn [c_val on]. unfold dict_of. rewrite Q, (O1 j) by congruence. rewrite B. cbn [c_val on].
  eexists. split; [reflexivity|]. split.
  - erewrite put_str_at; [|apply put_val_at; exact A1]. reflexivity.
  - intros k K. rewrite put_str_other, put_val_other by exact K. exact (O1 k K).
Qed.
Lemma copied_same z look st' st i j d e s : no_chains look -> sorted d ->
  st' i = Some (mk_cell (ODict (sdict (copy_stream look (mk_sobj d [] []) (mk_sobj e (s_buf s) (s_flt s))))) (Some (mk_strm i (s_buf s) (s_flt s)))) ->
  st j = Some (mk_cell (ODict e) (Some s)) -> s_par s = j -> same_data z look st' i st j.
Proof.
  intros NC S A B Q n raw. rewrite (read_own z look n raw st' i _ _ A eq_refl), (read_own z look n raw st j _ _ B Q). cbn [s_buf s_flt].
  destruct (copy_facts z look (mk_sobj d [] []) (mk_sobj e (s_buf s) (s_flt s)) NC S) as [R _]. specialize (R n raw).
  unfold copy_stream in R |- *. cbn [sdict sdata sfilters] in *. rewrite R. reflexivity.
Qed.

(** ** Copies *)

Theorem C166_copy z look st i j e s : no_chains look -> sorted e -> i <> j -> st j = Some (mk_cell (ODict e) (Some s)) -> s_par s = j ->
  exists st' c, copy_new look st i j = (st', Ok tt) /\ st' i = Some c /\ same_entries (c_val c) (ODict e) /\
  same_data z look st' i st j /\ (forall k, k <> i -> st' k = st k) /\ (exists x, c_str c = Some x /\ s_par x = i).
Proof.
  intros NC S N B Q. unfold copy_new. rewrite B. cbn [c_val].
  destruct (copied look (upd i (Some (mk_cell (ODict e) None)) st) i j e e s None N (upd_same _ _ _)) as (st' & E & A & O);
    [discriminate|rewrite upd_other by congruence; exact B|exact Q|]. rewrite E. exists st'. eexists. split; [reflexivity|]. split; [exact A|].
  split; [exact (proj2 (proj2 (copy_facts z look (mk_sobj e [] []) (mk_sobj e (s_buf s) (s_flt s)) NC S)))|].
  split; [exact (copied_same z look st' st i j e e s NC S A B Q)|]. split; [|eexists; split; reflexivity].
  intros k K. rewrite (O k K). apply upd_other, K.
Qed.
Print Assumptions C166_copy.
Theorem C166_assign z look st i j c e s : no_chains look -> sorted e -> i <> j -> st i = Some c -> (forall x, c_str c = Some x -> s_par x = i) ->
  st j = Some (mk_cell (ODict e) (Some s)) -> s_par s = j ->
  exists st' c', assign look st i j = (st', Ok tt) /\ st' i = Some c' /\ same_entries (c_val c') (ODict e) /\
  same_data z look st' i st j /\ forall k, k <> i -> st' k = st k.
Proof.
  intros NC S N A P B Q. unfold assign. rewrite B, A. cbn [c_val]. rewrite (proj2 (Nat.eqb_neq i j) N). cbn [andb].
  destruct (copied look (put_val i (ODict e) st) i j e e s (c_str c) N (put_val_at _ _ _ _ A) P) as (st' & E & A' & O);
    [rewrite put_val_other by congruence; exact B|exact Q|]. rewrite E. exists st'. eexists. split; [reflexivity|]. split; [exact A'|].
  split; [exact (proj2 (proj2 (copy_facts z look (mk_sobj e [] []) (mk_sobj e (s_buf s) (s_flt s)) NC S)))|].
  split; [exact (copied_same z look st' st i j e e s NC S A' B Q)|].
  intros k K. rewrite (O k K). apply put_val_other, K.
Qed.
Print Assumptions C166_assign.

(** What has no stream is copied as it is *)
Theorem C166_plain look st i j v : i <> j -> st j = Some (mk_cell v None) ->
  fst (copy_new look st i j) i = Some (mk_cell v None) /\ snd (copy_new look st i j) = Ok tt.
Proof.
  intros N B. unfold copy_new, copy_stream_from. rewrite B. rewrite upd_other by congruence. rewrite B. cbn [c_str c_val fst snd]. rewrite upd_same. split; reflexivity.
Qed.
Print Assumptions C166_plain.

(** Without moves every stream stays that of its object, and what is done to one object is not seen in another *)
Lemma put_val_homed i v st : homed st -> homed (put_val i v st).
Proof.
  intros H k c s E S. unfold put_val in E. destruct (st i) as [c0|] eqn:I; [|exact (H k c s E S)]. destruct (Nat.eq_dec k i) as [->|N].
  - rewrite upd_same in E. injection E as <-. exact (H i c0 s I S).
  - rewrite upd_other in E by exact N. exact (H k c s E S).
Qed.
Lemma put_str_homed i x st : homed st -> s_par x = i -> homed (put_str i (Some x) st).
Proof.
  intros H P k c s E S. unfold put_str in E. destruct (st i) as [c0|] eqn:I; [|exact (H k c s E S)]. destruct (Nat.eq_dec k i) as [->|N].
  - rewrite upd_same in E. injection E as <-. cbn in S. injection S as <-. exact P.
  - rewrite upd_other in E by exact N. exact (H k c s E S).
Qed.
Lemma upd_homed i v st : homed st -> homed (upd i (Some (mk_cell v None)) st).
Proof.
  intros H k c s E S. destruct (Nat.eq_dec k i) as [->|N]; [rewrite upd_same in E; injection E as <-; discriminate S|].
  rewrite upd_other in E by exact N. exact (H k c s E S).
Qed.
Lemma ensure_home st i s : homed st -> ensure_stream st i = Ok s -> s_par s = i.
Proof.
  intros H E. unfold ensure_stream in E. destruct (st i) as [c|] eqn:I; [|discriminate]. destruct (c_str c) as [x|] eqn:S.
  - apply ok_inj in E. subst x. exact (H i c s I S).
  - destruct (c_val c); try discriminate. apply ok_inj in E. subst s. reflexivity.
Qed.
Lemma on_cases {A} (r : res A) (bad : store) k (P : store -> Prop) : P bad -> (forall a, r = Ok a -> P (fst (k a))) -> P (fst (on r bad k)).
Proof. intros B G. destruct r; cbn [on fst]; try exact B. apply G. reflexivity. Qed.
Definition good (i : nat) (st st' : store) : Prop := homed st' /\ forall k, k <> i -> st' k = st k.
Lemma stream_good look st i j : homed st -> good i st (fst (copy_stream_from look st i j)).
Proof.
  intros H. assert (G : good i st st) by (split; [exact H|reflexivity]). unfold copy_stream_from. destruct (st j) as [cj|]; [|exact G].
  destruct (c_str cj) as [sj|]; [|exact G]. apply on_cases; [exact G|]. intros si E. pose proof (ensure_home st i si H E) as P.
  set (st1 := put_str i _ st). assert (G1 : good i st st1).
  { split; [apply put_str_homed; [exact H|exact P]|intros k K; apply put_str_other, K]. }
  apply on_cases; [exact G1|]. intros ld _. apply on_cases; [exact G1|]. intros rd _. cbn [fst]. split.
  - apply put_str_homed; [|exact P]. apply put_val_homed, G1.
  - intros k K. rewrite put_str_other by exact K. rewrite put_val_other by congruence. exact (proj2 G1 k K).
Qed.
Lemma step_good z look st o : homed st -> good (target o) st (fst (ostep z look st o)).
Proof.
  intros H. assert (G : good (target o) st st) by (split; [exact H|reflexivity]). destruct o as [i v|i ts data|i j|i j|i]; cbn [ostep target fst] in *.
  - split; [apply upd_homed, H|intros k K; apply upd_other, K].
  - unfold set_stream. apply on_cases; [exact G|]. intros s E. pose proof (ensure_home st i s H E) as P. apply on_cases; [exact G|]. intros d _.
    destruct (set_data z ts [data] _) as [r o]. cbn [fst]. split; [apply put_str_homed; [apply put_val_homed, H|exact P]|].
    intros k K. rewrite put_str_other by exact K. apply put_val_other. congruence.
  - unfold copy_new. destruct (st j) as [cj|]; [|exact G]. destruct (stream_good look _ i j (upd_homed i (c_val cj) st H)) as [A B].
    destruct (copy_stream_from look _ i j) as [s [u|e| |]]; cbn [fst] in *; try exact G. split; [exact A|]. intros k K. rewrite (B k K). apply upd_other, K.
  - unfold assign. destruct (st j) as [cj|]; [|exact G]. destruct (Nat.eqb i j && on_heap (c_val cj)); [exact G|]. destruct (st i); [|exact G].
    destruct (stream_good look _ i j (put_val_homed i (c_val cj) st H)) as [A B]. split; [exact A|]. intros k K. rewrite (B k K). apply put_val_other, K.
  - split; [|intros k K; apply upd_other, K]. intros k c s E S. destruct (Nat.eq_dec k i) as [->|N]; [rewrite upd_same in E; discriminate E|].
    rewrite upd_other in E by exact N. exact (H k c s E S).
Qed.
Theorem C166_apart z look l : forall st k, homed st -> Forall (fun o => target o <> k) l ->
  orun z look st l k = st k /\ same_data z look (orun z look st l) k st k.
Proof.
  intros st k H F. assert (X : homed (orun z look st l) /\ orun z look st l k = st k).
  { revert st H. induction F as [|o l N F IH]; intros st H; [split; [exact H|reflexivity]|]. unfold orun. cbn [fold_left].
    destruct (step_good z look st o H) as [A B]. destruct (IH _ A) as [C D]. split; [exact C|]. unfold orun in D. rewrite D. apply B. congruence. }
  destruct X as [A E]. split; [exact E|]. intros n raw. unfold read. rewrite E. destruct (st k) as [c|] eqn:K; [|reflexivity].
  destruct (c_str c) as [s|] eqn:S; [|reflexivity]. rewrite (H k c s K S). unfold dict_of. rewrite E, K. reflexivity.
Qed.
Print Assumptions C166_apart.

(** ** What is kept and what is lost *)

(** An object that is assigned one without a stream keeps its own: all that had data still has it, whatever it is now *)
Theorem C166_kept_refuted look st i j v w s : i <> j -> st i = Some (mk_cell v (Some s)) -> st j = Some (mk_cell w None) ->
  exists st', assign look st i j = (st', Ok tt) /\ st' i = Some (mk_cell w (Some s)) /\
  (forall z n, read z look n true st j = Ok None) /\ forall z n, read z look n true st' i = Ok (Some (s_buf s)).
Proof.
  intros N A B. unfold assign. rewrite B, A. cbn [c_val]. rewrite (proj2 (Nat.eqb_neq i j) N). cbn [andb]. unfold copy_stream_from.
  rewrite put_val_other by congruence. rewrite B. cbn [c_str]. eexists. split; [reflexivity|]. rewrite (put_val_at i w st _ A). split; [reflexivity|].
  split; intros z n; unfold read; [rewrite B; reflexivity|]. rewrite (put_val_at i w st _ A). reflexivity.
Qed.
Print Assumptions C166_kept_refuted.
(** Moving: the value and the data as it is stored are there, and the other object is null *)
Theorem C166_move st i j c : i <> j -> st j = Some c -> let st' := fst (move_new st i j) in
  snd (move_new st i j) = Ok tt /\ st' i = Some c /\ st' j = Some (mk_cell ONull None) /\ (forall k, k <> i -> k <> j -> st' k = st k) /\
  forall z look n, read z look n true st' i = read z look n true st j.
Proof.
  intros N B. unfold move_new. rewrite B. cbn [fst snd]. split; [reflexivity|]. rewrite upd_same. rewrite upd_other by congruence. rewrite upd_same.
  split; [reflexivity|]. split; [reflexivity|]. split; [intros k K L; rewrite !upd_other by congruence; reflexivity|].
  intros z look n. unfold read. rewrite upd_same, B. destruct (c_str c); reflexivity.
Qed.
Print Assumptions C166_move.
(** The data of an object that was moved cannot be decoded: its stream looks for the parameters in the object it was moved from. Once that one
    is gone this is undefined. Nor can it be copied *)
Theorem C166_moved_refuted z look n st i j v s : i <> j -> st j = Some (mk_cell v (Some s)) -> s_par s = j -> s_flt s <> [] ->
  let st' := fst (move_new st i j) in
  read z look n false st' i = Err EInvalidDataType /\ read z look n false (upd j None st') i = UB /\
  (forall k, k <> i -> k <> j -> forall d, v = ODict d -> copy_new look st' k i = (st', Err EInvalidDataType)).
Proof.
  intros N B P F. unfold move_new. rewrite B. cbn [fst]. set (st' := upd i _ _).
  assert (I : st' i = Some (mk_cell v (Some s))) by apply upd_same.
  assert (J : st' j = Some (mk_cell ONull None)) by (unfold st'; rewrite upd_other by congruence; apply upd_same).
  split; [|split].
  - unfold read. rewrite I. cbn [c_str]. destruct (s_flt s) as [|t ts]; [destruct (F eq_refl)|]. cbn [orb]. unfold dict_of. rewrite P, J. reflexivity.
  - unfold read. rewrite upd_other by congruence. rewrite I. cbn [c_str]. destruct (s_flt s) as [|t ts]; [destruct (F eq_refl)|]. cbn [orb].
    unfold dict_of. rewrite P, upd_same. reflexivity.
  - intros k K L d ->. unfold copy_new. rewrite I. cbn [c_val]. unfold copy_stream_from. rewrite upd_other by congruence. rewrite I. cbn [c_str].
    unfold ensure_stream. rewrite upd_same. cbn [c_str c_val on s_par s_flt]. unfold dict_of at 1. erewrite put_str_at by apply upd_same. cbn [c_val on].
    unfold dict_of. rewrite P, put_str_other, upd_other, J by congruence. reflexivity.
Qed.
Print Assumptions C166_moved_refuted.
(** An object without a stream that is assigned itself is undefined exactly when it is a dictionary, an array, a name or a string; one that is
    moved to itself is null *)
Theorem C166_self_refuted look st i v : st i = Some (mk_cell v None) ->
  (snd (assign look st i i) = UB <-> (exists d, v = ODict d) \/ (exists l, v = OArr l) \/ (exists n, v = OName n) \/ (exists h x, v = OStr h x)).
Proof.
  intros E. unfold assign. rewrite E, Nat.eqb_refl. cbn [c_val andb]. unfold copy_stream_from. rewrite (put_val_at i v st _ E). cbn [c_str].
  destruct v as [| | | |n|h x| |l|d]; cbn [on_heap snd];
    try (split; [discriminate|intros [[? X]|[[? X]|[[? X]|[? [? X]]]]]; discriminate X]); (split; [intros _|reflexivity]).
  - right. right. left. exists n. reflexivity.
  - right. right. right. exists h, x. reflexivity.
  - right. left. exists l. reflexivity.
  - left. exists d. reflexivity.
Qed.
Print Assumptions C166_self_refuted.
Theorem C166_self_move_refuted st i c : st i = Some c -> fst (move_assign st i i) i = Some (mk_cell ONull (c_str c)).
Proof. intros E. unfold move_assign. rewrite E, Nat.eqb_refl. apply upd_same. Qed.
Print Assumptions C166_self_move_refuted.

Definition zz : zlib := mk_zlib hex_enc hex_dec.
Definition nolook : Z * Z -> option obj := fun _ => None.
Example C166_case :
  let st := orun zz nolook (fun _ => None)
    [ONew 0 (ODict [(bs "Type", OName (bs "Metadata"))]); OSet 0 [FFlate] (bs "Hello"); OCopy 1 0; OSet 0 [FHex] (bs "Bye"); ONew 2 (ONum 7); OAssign 2 1; OGone 1] in
  read zz nolook 9 false st 0 = Ok (Some (bs "Bye")) /\ read zz nolook 9 false st 1 = UB /\ read zz nolook 9 false st 2 = Ok (Some (bs "Hello")) /\
  read zz nolook 9 false (fst (move_new st 3 2)) 3 = Err EInvalidDataType.
Proof. repeat split; vm_compute; reflexivity. Qed.
