(** Extraction of text: the events that contents make, and the entries that events make. *)
From Coq Require Import String QArith Lqa.
From Verif Require Import Base ChainProofs TokModel RectModel OpTables ContentsModel ExtractModel ExtractSpec.
Local Open Scope Z_scope.

(** ** White space *)
Lemma white_iff c : white c = true <-> blank c.
Proof.
  unfold white, blank. cbn [existsb]. rewrite !orb_true_iff, !Z.eqb_eq, orb_false_r || rewrite !orb_true_iff, !Z.eqb_eq. lia.
Qed.
Lemma white_false c : white c = false <-> ~ blank c.
Proof. rewrite <- white_iff. destruct (white c); split; congruence. Qed.

(** ** Events *)
Inductive event := EStr (s : sstr) (chunked : bool) | EEnd.
Definition strings_of (l : list event) : list sstr := concat (map (fun v => match v with EStr s _ => [s] | EEnd => [] end) l).
(** The context with other states *)
Definition recast (x : context) (st : list tstate) (fs : list (Z * nat)) (p : Z) : context :=
  mk_cx (x_entries x) (x_chunk x) (x_chunks x) st fs (x_line x) (x_prev x) p.
Lemma recast_twice x st fs p st' fs' p' : recast (recast x st fs p) st' fs' p' = recast x st' fs' p'.
Proof. reflexivity. Qed.
Lemma recast_self x : recast x (x_states x) (x_forms x) (x_page x) = x.
Proof. destruct x. reflexivity. Qed.
Section Play.
Variable e : env.
Variable a : args.
Lemma flush_recast x st fs p : flush e a (recast x st fs p) = do y <- flush e a x; Ok (recast y st fs p).
Proof. unfold flush. cbn [x_chunks recast]. destruct (add_entry e a (x_chunks x)); reflexivity. Qed.
Lemma try_push_recast x st fs p : try_push_chunk (recast x st fs p) = recast (try_push_chunk x) st fs p.
Proof. unfold try_push_chunk. cbn [x_chunk recast]. destruct (x_chunk x); reflexivity. Qed.
Lemma try_add_recast x s st fs p : hd start st = current x -> try_add_entry e a (recast x st fs p) s = do y <- try_add_entry e a x s; Ok (recast y st fs p).
Proof.
  intro C. assert (CC : current (recast x st fs p) = current x) by (unfold current at 1; cbn [x_states recast]; destruct st; exact C).
  unfold try_add_entry. unfold distance. rewrite !CC. cbn [x_chunks x_chunk x_line x_prev recast].
  rewrite try_push_recast, flush_recast.
  destruct (x_chunks x) eqn:K1, (x_chunk x) eqn:K2; try reflexivity;
  (destruct (match x_line x with Some _ => _ | None => _ end); [|reflexivity]); (destruct (Qle_bool _ _); [|reflexivity]);
  (destruct (_ || _); [reflexivity|]); destruct (rev _) as [|u us]; try reflexivity;
  try (destruct (_ || _); reflexivity); try (destruct (rev (map _ _)) as [|[|v vs] vv]; try reflexivity; destruct (_ || _); reflexivity).
Qed.
(** One string after its state *)
Definition feed (x : context) (s : sstr) (b : bool) : res context := push_string e a (recast x [ss_state s] [] 0) s b.
Lemma push_feed x s b : current x = ss_state s -> push_string e a x s b = do y <- feed x s b;
  Ok (recast y (set_trm (set_tm (current x) (apply_tx (tm (current x)) (qsum (ss_raw s)))) :: tl (x_states x)) (x_forms x) (x_page x)).
Proof.
  intro C. unfold feed, push_string. cbn [x_entries x_chunk x_chunks x_states x_forms x_line x_prev x_page recast current]. rewrite C.
  set (X := mk_cx (x_entries x) (x_chunk x) (x_chunks x) (x_states x) (x_forms x) _ (x_prev x) (x_page x)).
  set (Y := mk_cx (x_entries x) (x_chunk x) (x_chunks x) [ss_state s] [] _ (x_prev x) 0).
  assert (E : X = recast Y (x_states x) (x_forms x) (x_page x)) by reflexivity. rewrite E.
  rewrite try_add_recast by (unfold current in C; destruct (x_states x); exact C).
  destruct (try_add_entry e a Y s) as [z| | |] eqn:T; cbn [bind]; try reflexivity.
  assert (ZS : x_states z = [ss_state s]).
  { revert T. clear. intro T. assert (RY : Y = recast Y [ss_state s] [] 0) by reflexivity. rewrite RY in T. rewrite try_add_recast in T by reflexivity.
    destruct (try_add_entry e a Y s); try discriminate T. cbn [bind] in T. apply ok_inj in T. rewrite <- T. reflexivity. }
  destruct b; unfold current; cbn [x_states x_entries x_chunk x_chunks x_forms x_line x_prev x_page recast push_chunk put set_current]; rewrite ZS; cbn [tl];
  unfold current in C; destruct (x_states x); cbn [hd] in C; rewrite C; reflexivity.
Qed.
Lemma feed_recast x s b st fs p : feed (recast x st fs p) s b = feed x s b.
Proof. reflexivity. Qed.
Fixpoint play (x : context) (l : list event) : res context :=
  match l with
  | [] => Ok x
  | EStr s b :: l => do x <- feed x s b; play x l
  | EEnd :: l => play (try_push_chunk x) l
  end.
Lemma play_app l1 : forall x l2, play x (l1 ++ l2) = do y <- play x l1; play y l2.
Proof.
  induction l1 as [|[s b|] l1 IH]; intros x l2; cbn [play app].
  - reflexivity.
  - destruct (feed x s b); cbn [bind]; [apply IH|reflexivity..].
  - apply IH.
Qed.
Lemma play_recast l : forall x st fs p st' fs' p', (do y <- play (recast x st fs p) l; Ok (recast y st' fs' p')) = do y <- play x l; Ok (recast y st' fs' p').
Proof.
  induction l as [|[s b|] l IH]; intros x st fs p st' fs' p'; cbn [play].
  - cbn [bind]. reflexivity.
  - rewrite feed_recast. reflexivity.
  - rewrite try_push_recast. apply IH.
Qed.
End Play.
