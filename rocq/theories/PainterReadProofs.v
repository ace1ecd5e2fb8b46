(** Reading what was painted: the texts of instructions are read one way only. *)
From Coq Require Import Lia String QArith.
From Verif Require Import Base TokModel WriteModel TokProofs ObjSpec ChainProofs OpTables ContentsModel ContentsSpec ContentsProps PainterModel PainterSpec.
Local Open Scope Z_scope.

Definition no_world : world := mk_world (fun _ _ => None) (fun _ => []).
(** The instructions which a reader shows *)
Fixpoint instrs_of (l : list content) : list instr :=
  match l with
  | c :: r =>
    match ct_type c, r with
    | CImageDict, d :: r' => IImage (ct_dict c) (ct_data d) :: instrs_of r'
    | _, _ => IOp (rev (ct_stack c)) (ct_kw c) :: instrs_of r
    end
  | [] => []
  end.
Lemma shows_some is t : program_text is t -> exists out, shows no_world true None [] is out.
Proof.
  induction 1 as [ws B|args n t t1 k is V W N P [out IH]|es d data t t1 t2 c w k is W1 SD PE V W2 C0 C1 N1 N2 P [out IH]].
  - exists []. constructor.
  - destruct (op_of_name n) as [op|] eqn:E.
    + pose proof (proj1 (C103_names n) (ex_intro _ op E)) as H. apply in_map_iff in H as ([m k0] & M & H). cbn [fst] in M. subst m.
      eexists. eapply sh_op; [exact H|exact (proj1 (C103_inverse n op) E)|exact N|reflexivity|exact IH].
    + eexists. eapply sh_unknown; [|exact IH]. intros H. apply C103_names in H as (op & H). congruence.
  - eexists. apply sh_image. exact IH.
Qed.
Lemma shows_instrs cv is out : shows no_world true cv [] is out -> cv = None -> instrs_of out = is.
Proof.
  intros H. remember (@nil Z) as path. revert Heqpath. induction H; intros -> CV; try discriminate CV; [reflexivity| | |].
  - cbn [instrs_of shown ct_type ct_stack ct_kw]. rewrite rev_involutive, IHshows by auto. reflexivity.
  - cbn [instrs_of shown ct_type ct_stack ct_kw]. rewrite rev_involutive, IHshows by auto. reflexivity.
  - cbn [instrs_of ct_type ct_dict ct_data]. rewrite IHshows by auto. reflexivity.
Qed.
Definition reading (fuel : nat) (t : list Z) : res (list content) := read_all fuel no_world (mk_ra false true None) (open_device t) new_content.
Theorem program_read is t : program_text is t -> exists out, (forall fuel, (length out < fuel)%nat -> reading fuel t = Ok out) /\ instrs_of out = is.
Proof. intros P. destruct (shows_some is t P) as [out S]. exists out. split; [intros fuel L; exact (C104_device no_world true is t out fuel P S L)|exact (shows_instrs _ _ _ S eq_refl)]. Qed.
Theorem program_unique is t fuel out : program_text is t -> reading fuel t = Ok out -> is = instrs_of out.
Proof.
  intros P R. destruct (program_read is t P) as (out' & A & <-). specialize (A (Nat.max fuel (S (length out'))) ltac:(lia)).
  pose proof (C106_same fuel (Nat.max fuel (S (length out'))) _ _ _ _ _ R ltac:(lia)) as B. unfold reading in A. rewrite B in A. apply ok_inj in A. subst. reflexivity.
Qed.
Lemma shows_not c fuel out : reading fuel (joined (texts (cv_streams c))) = Ok out -> execs (instrs_of out) begin_m = None -> forall es, ~ page_shows c es.
Proof. intros R E es (is & m & P & X & _). rewrite (program_unique is _ fuel out P R) in X. congruence. Qed.
Lemma shows_only c fuel out m : reading fuel (joined (texts (cv_streams c))) = Ok out -> execs (instrs_of out) begin_m = Some m -> forall es, page_shows c es -> es = m_events m.
Proof. intros R E es (is & m' & P & X & _ & <-). rewrite (program_unique is _ fuel out P R) in X. congruence. Qed.
Lemma not_shown c fuel out es : reading fuel (joined (texts (cv_streams c))) = Ok out ->
  match execs (instrs_of out) begin_m with Some m => m_events m <> es | None => True end -> ~ page_shows c es.
Proof.
  intros R E (is & m & P & X & _ & Y). rewrite (program_unique is _ fuel out P R) in X. rewrite X in E. contradiction.
Qed.
