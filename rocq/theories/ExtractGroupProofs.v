(** Extraction of text: the entries that events make. *)
From Coq Require Import String QArith Lqa.
From Verif Require Import Base ChainProofs TokModel RectModel OpTables ContentsModel ExtractModel ExtractSpec ExtractProofs ExtractSimProofs.
Local Open Scope Z_scope.

(** Strings with spaces between some of them *)
Inductive spaced (fk : bool) : list sstr -> list sstr -> Prop :=
| SOne s : spaced fk [s] [s]
| SNext g l s : spaced fk g l -> spaced fk (g ++ [s]) (l ++ [s])
| SFake g l f s : fk = true -> spaced fk g l -> ss_text f = [32] -> made f [[32]] -> spaced fk (g ++ [s]) (l ++ [f; s]).
Definition full (l : list chunk) : Prop := l <> [] /\ Forall (fun c => c <> []) l.
Lemma spaced_ne fk g l : spaced fk g l -> g <> [] /\ l <> [].
Proof. intros []; split; try discriminate; intro X; apply app_eq_nil in X as (_ & X); discriminate. Qed.
Lemma spaced_last fk g l : spaced fk g l -> exists g0 l0 p, g = g0 ++ [p] /\ l = l0 ++ [p].
Proof.
  intros [s|g0 l0 s H|g0 l0 f s K H F M].
  - exists [], [], s. auto.
  - exists g0, l0, s. auto.
  - exists g0, (l0 ++ [f]), s. rewrite <- !app_assoc. auto.
Qed.
Lemma last_of_chunks cs c l0 p : Forall (fun c : chunk => c <> []) cs -> concat cs ++ c = l0 ++ [p] ->
  (exists r, rev c = p :: r) \/ (rev c = [] /\ exists r q, rev (map (@rev sstr) cs) = (p :: r) :: q).
Proof.
  intros NE H. destruct (rev c) as [|z r] eqn:RC.
  - right. split; [reflexivity|]. apply (f_equal (@rev sstr)) in RC. rewrite rev_involutive in RC. cbn in RC. subst c. rewrite app_nil_r in H.
    destruct cs as [|c0 cs0] using rev_ind; [cbn in H; symmetry in H; apply app_eq_nil in H as (_ & H); discriminate|].
    apply Forall_app in NE as (_ & NE). inversion NE as [|? ? NC]; subst. rewrite concat_app in H. cbn [concat] in H. rewrite app_nil_r in H.
    rewrite map_app, rev_app_distr. cbn [map rev app].
    destruct c0 as [|u c0] using rev_ind; [congruence|]. rewrite app_assoc in H. apply app_inj_tail in H as (_ & ->). rewrite rev_app_distr. cbn [rev app].
    exists (rev c0), (rev (map (@rev sstr) cs0)). reflexivity.
  - left. exists r. apply (f_equal (@rev sstr)) in RC. rewrite rev_involutive in RC. cbn [rev] in RC. subst c. rewrite app_assoc in H. apply app_inj_tail in H as (_ & ->). reflexivity.
Qed.

Definition fakes (a : args) : bool := negb (o_words (a_opts a)).
(** What is between two strings *)
Definition near (s t : sstr) : bool := same_line (snd (ss_at t)) (snd (ss_at s)).
Definition reach (e : env) (s t : sstr) : Q := (vlen e (vsub (ss_at t) (ss_end s)) + epsilon)%Q.
Definition far (e : env) (s t : sstr) : bool := Qle_bool (wlen (ss_state t)) (reach e s t).
Definition very_far (e : env) (s t : sstr) : bool := ltb (wlen (ss_state t) * 6) (reach e s t).
Definition kind_ok (e : env) (a : args) (s t : sstr) (k : sep) : Prop :=
  match k with
  | Tight => near s t = true /\ (far e s t = false \/ (far e s t = true /\ o_words (a_opts a) = false /\ very_far e s t = false /\ ends_white s || begins_white t = true))
  | Space => near s t = true /\ far e s t = true /\ o_words (a_opts a) = false /\ very_far e s t = false /\ ends_white s || begins_white t = false
  | Apart => near s t = false \/ (far e s t = true /\ o_words (a_opts a) || very_far e s t = true)
  end.
(** The groups of strings, and the strings with the spaces *)
Inductive hist (e : env) (a : args) : list (list sstr * list sstr) -> Prop :=
| HNil : hist e a []
| HOne s : hist e a [([s], [s])]
| HTight r g p l s : hist e a (r ++ [(g ++ [p], l)]) -> kind_ok e a p s Tight -> hist e a (r ++ [(g ++ [p; s], l ++ [s])])
| HSpace r g p l f s : hist e a (r ++ [(g ++ [p], l)]) -> kind_ok e a p s Space -> ss_text f = [32] -> made f [[32]] -> hist e a (r ++ [(g ++ [p; s], l ++ [f; s])])
| HApart r g p l s : hist e a (r ++ [(g ++ [p], l)]) -> kind_ok e a p s Apart -> hist e a (r ++ [(g ++ [p], l); ([s], [s])]).
Lemma snoc2 {A} (g : list A) p s : g ++ [p; s] = (g ++ [p]) ++ [s].
Proof. rewrite <- app_assoc. reflexivity. Qed.
Lemma hist_spaced e a h : hist e a h -> Forall (fun r => spaced (fakes a) (fst r) (snd r)) h.
Proof.
  induction 1 as [|s|r g p l s H IH K|r g p l f s H IH K T M|r g p l s H IH K].
  - constructor.
  - constructor; [constructor|constructor].
  - apply Forall_app in IH as (A & B). inversion B as [|? ? C _]; subst. apply Forall_app. split; [exact A|]. constructor; [|constructor]. cbn [fst snd] in *. rewrite snoc2. apply SNext, C.
  - apply Forall_app in IH as (A & B). inversion B as [|? ? C _]; subst. apply Forall_app. split; [exact A|]. constructor; [|constructor]. cbn [fst snd] in *. rewrite snoc2.
    apply SFake; try assumption. destruct K as (_ & _ & OW & _). unfold fakes. rewrite OW. reflexivity.
  - apply Forall_app in IH as (A & B). inversion B as [|? ? C _]; subst. apply Forall_app. split; [exact A|]. constructor; [exact C|]. constructor; [constructor|constructor].
Qed.

Section Group.
Variable e : env.
Variable a : args.
(** What is known of the strings *)
Variable ok : sstr -> Prop.
(** Entries can be made of all groups *)
Hypothesis AOK : forall g l, spaced (fakes a) g (concat l) -> Forall ok g -> full l -> exists en, add_entry e a l = Ok en.
(** The group that is not finished *)
Definition pending (x : context) (c : option (list sstr * list sstr)) : Prop :=
  match c with
  | None => x_chunks x = [] /\ x_chunk x = []
  | Some (g, l) => l = concat (x_chunks x) ++ x_chunk x /\ Forall (fun c => c <> []) (x_chunks x) /\
      exists g0 p, g = g0 ++ [p] /\ x_line x = Some (snd (ss_at p)) /\ x_prev x = ss_end p
  end.
Definition opt {A} (o : option A) : list A := match o with Some x => [x] | None => [] end.
Definition group_ok (h : list sstr * list sstr) (r : list chunk * list entry) : Prop := concat (fst r) = snd h /\ full (fst r) /\ add_entry e a (fst r) = Ok (snd r).
Definition inv (hs : list (list sstr * list sstr)) (c : option (list sstr * list sstr)) (x : context) : Prop :=
  hist e a (hs ++ opt c) /\ Forall (fun h => Forall ok (fst h)) (hs ++ opt c) /\ pending x c /\ exists rs, Forall2 group_ok hs rs /\ x_entries x = concat (map snd rs).
Lemma last_spaced hs g l : hist e a (hs ++ [(g, l)]) -> spaced (fakes a) g l.
Proof. intro H. apply hist_spaced in H. apply Forall_app in H as (_ & H). inversion H; assumption. Qed.
Lemma flush_ok hs g l x : inv hs (Some (g, l)) x -> x_chunk x = [] -> exists y, flush e a x = Ok y /\ x_chunks y = [] /\ x_chunk y = [] /\
  exists rs, Forall2 group_ok (hs ++ [(g, l)]) rs /\ x_entries y = concat (map snd rs).
Proof.
  intros (HI & W & (L & FN & g0 & p & G & LN & PR) & rs & F & E) C. rewrite C, app_nil_r in L. cbn [opt] in *. pose proof (last_spaced hs g l HI) as SP.
  assert (FU : full (x_chunks x)) by (split; [intro X; rewrite X in L; subst l; apply spaced_ne in SP; apply SP; reflexivity|exact FN]).
  apply Forall_app in W as (_ & W). inversion W as [|? ? WG _]; subst. cbn [fst] in WG.
  destruct (AOK _ (x_chunks x) SP WG FU) as (en & A). unfold flush. rewrite A. cbn [bind]. eexists. split; [reflexivity|]. split; [reflexivity|]. split; [exact C|].
  exists (rs ++ [(x_chunks x, en)]). split.
  - apply Forall2_app; [exact F|]. constructor; [|constructor]. split; [reflexivity|]. split; [exact FU|exact A].
  - cbn [x_entries]. rewrite E, map_app, concat_app. cbn [map concat snd]. rewrite app_nil_r. reflexivity.
Qed.
Lemma try_push_inv hs c x : inv hs c x -> inv hs c (try_push_chunk x) /\ x_chunk (try_push_chunk x) = [].
Proof.
  intros (HI & W & P & rs & F & E). unfold try_push_chunk. destruct (x_chunk x) as [|s k] eqn:C; [split; [split; [exact HI|split; [exact W|split; [exact P|exists rs; auto]]]|exact C]|].
  split; [|reflexivity]. split; [exact HI|]. split; [exact W|]. split; [|exists rs; split; [exact F|exact E]]. destruct c as [[g l]|]; [|destruct P as (_ & P); congruence].
  destruct P as (L & FN & R). unfold pending, push_chunk. cbn [x_chunks x_chunk x_line x_prev]. rewrite C in *. rewrite concat_app. cbn [concat]. rewrite !app_nil_r.
  split; [exact L|]. split; [|exact R]. apply Forall_app. split; [exact FN|]. constructor; [discriminate|constructor].
Qed.
(** Before a string is put: the groups with it *)
Definition ready (hs : list (list sstr * list sstr)) (c : option (list sstr * list sstr)) (s : sstr) (x : context) : Prop :=
  exists hs' g' l', map fst (hs' ++ [(g', l')]) <> [] /\ concat (map fst hs') ++ g' = concat (map fst (hs ++ opt c)) ++ [s] /\
    hist e a (hs' ++ [(g', l')]) /\ Forall (fun h => Forall ok (fst h)) (hs' ++ [(g', l')]) /\
    l' = concat (x_chunks x) ++ x_chunk x ++ [s] /\ Forall (fun c => c <> []) (x_chunks x) /\ (exists g0, g' = g0 ++ [s]) /\
    exists rs, Forall2 group_ok hs' rs /\ x_entries x = concat (map snd rs).
Lemma try_add_ready hs c s x : inv hs c x -> (c = None -> hs = []) -> current x = ss_state s -> ok s -> exists y, try_add_entry e a x s = Ok y /\ ready hs c s y.
Proof.
  intros IV HN CU WS. pose proof IV as (HI & W & P & rs & F & E). unfold try_add_entry. destruct c as [[g l]|].
  - destruct P as (L & FN & g0 & p & G & LN & PR). cbn [opt] in *. pose proof (last_spaced hs g l HI) as SP.
    assert (FL : kind_ok e a p s Apart -> exists y, flush e a (try_push_chunk x) = Ok y /\ ready hs (Some (g, l)) s y).
    { intro K. destruct (try_push_inv hs (Some (g, l)) x IV) as (I1 & C1). destruct (flush_ok hs g l _ I1 C1) as (y & FY & Y1 & Y2 & ry & FR & EY). exists y. split; [exact FY|].
      exists (hs ++ [(g, l)]), [s], [s]. rewrite Y1, Y2. cbn [concat app opt].
      split; [rewrite map_app; intro X; apply app_eq_nil in X as (_ & X); discriminate|]. split; [reflexivity|].
      split; [rewrite <- app_assoc; cbn [app]; rewrite G; apply HApart; [rewrite <- G; exact HI|exact K]|].
      split; [apply Forall_app; split; [exact W|constructor; [constructor; [exact WS|constructor]|constructor]]|]. split; [reflexivity|]. split; [constructor|]. split; [exists []; reflexivity|].
      exists ry. auto. }
    assert (LL : exists y, (if match x_line x with Some y => same_line (mf (trm (current x))) y | None => false end then
        let d := distance e x in let w := wlen (current x) in
        if Qle_bool w (d + epsilon) then
          if o_words (a_opts a) || ltb (w * 6) (d + epsilon) then flush e a (try_push_chunk x)
          else match rev (x_chunk x), rev (map (@rev sstr) (x_chunks x)) with
               | p :: _, _ | [], (p :: _) :: _ => Ok (if ends_white p || begins_white s then x else put x (new_ss e [32] (ss_state p) [d] [0]))
               | _, _ => UB end
        else Ok x
      else flush e a (try_push_chunk x)) = Ok y /\ ready hs (Some (g, l)) s y).
    2: { destruct (x_chunks x), (x_chunk x); try exact LL. exfalso. cbn in L. subst l. apply spaced_ne in SP. apply SP. reflexivity. }
    rewrite LN, CU. change (mf (trm (ss_state s))) with (snd (ss_at s)). fold (near p s). destruct (near p s) eqn:NR; [|apply FL; left; exact NR].
    cbv zeta. unfold distance. rewrite CU, PR. change (origin (trm (ss_state s))) with (ss_at s). fold (reach e p s). fold (far e p s). fold (very_far e p s).
    assert (GS : concat (map fst (hs ++ [(g, l)])) ++ [s] = concat (map fst hs) ++ g0 ++ [p; s]).
    { rewrite map_app, concat_app. cbn [map concat fst]. rewrite app_nil_r, G, <- !app_assoc. reflexivity. }
    assert (WW : forall l', Forall (fun h => Forall ok (fst h)) (hs ++ [(g0 ++ [p; s], l')])).
    { intro l'. apply Forall_app in W as (W1 & W2). inversion W2 as [|? ? W3 _]; subst. apply Forall_app. split; [exact W1|]. constructor; [|constructor]. cbn [fst] in *. rewrite snoc2.
      apply Forall_app. split; [exact W3|constructor; [exact WS|constructor]]. }
    assert (NN : forall (q : list (list sstr * list sstr)) r, map fst (q ++ [r]) <> []) by (intros q r X; rewrite map_app in X; apply app_eq_nil in X as (_ & X); discriminate).
    assert (STAY : kind_ok e a p s Tight -> ready hs (Some (g, l)) s x).
    { intro K. exists hs, (g0 ++ [p; s]), (l ++ [s]). split; [apply NN|]. split; [symmetry; exact GS|]. split; [apply HTight; [rewrite <- G; exact HI|exact K]|].
      split; [apply WW|]. rewrite L, <- app_assoc. split; [reflexivity|]. split; [exact FN|]. split; [exists (g0 ++ [p]); apply snoc2|]. exists rs. auto. }
    destruct (far e p s) eqn:FA; [|exists x; split; [reflexivity|apply STAY; split; [exact NR|left; exact FA]]].
    destruct (o_words (a_opts a) || very_far e p s) eqn:OV; [apply FL; right; auto|]. apply orb_false_iff in OV as (OW & VF).
    destruct (spaced_last _ _ _ SP) as (g1 & l1 & p1 & G1 & L1).
    assert (PX : p1 = p) by (rewrite G in G1; apply app_inj_tail in G1; symmetry; apply G1). rewrite PX in *.
    assert (QQ : exists y, Ok (if ends_white p || begins_white s then x else put x (new_ss e [32] (ss_state p) [vlen e (vsub (ss_at s) (ss_end p))] [0])) = Ok y /\ ready hs (Some (g, l)) s y).
    { destruct (ends_white p || begins_white s) eqn:EB; eexists; (split; [reflexivity|]); [apply STAY; split; [exact NR|right; auto]|].
      exists hs, (g0 ++ [p; s]), (l ++ [new_ss e [32] (ss_state p) [vlen e (vsub (ss_at s) (ss_end p))] [0]; s]). split; [apply NN|]. split; [symmetry; exact GS|].
      split; [apply HSpace; [rewrite <- G; exact HI|split; auto|reflexivity|unfold made, new_ss; cbn; repeat split; discriminate]|].
      split; [apply WW|]. unfold put. cbn [x_chunks x_chunk x_entries]. split; [rewrite L, <- !app_assoc; reflexivity|]. split; [exact FN|]. split; [exists (g0 ++ [p]); apply snoc2|]. exists rs. auto. }
    assert (L2 : concat (x_chunks x) ++ x_chunk x = l1 ++ [p]) by (rewrite <- L; exact L1).
    destruct (last_of_chunks (x_chunks x) (x_chunk x) l1 p FN L2) as [(r & ->)|(-> & r & q & ->)]; exact QQ.
  - destruct P as (K1 & K2). rewrite K1, K2. rewrite (HN eq_refl) in *. exists x. split; [reflexivity|]. exists [], [s], [s]. rewrite K1, K2. cbn [app concat map opt fst].
    split; [discriminate|]. split; [reflexivity|]. split; [constructor|]. split; [constructor; [constructor; [exact WS|constructor]|constructor]|]. split; [reflexivity|]. split; [constructor|].
    split; [exists []; reflexivity|]. exists rs. auto.
Qed.
Lemma feed_ok hs c s b x : inv hs c x -> (c = None -> hs = []) -> ok s -> exists y hs' g' l', feed e a x s b = Ok y /\ (b = true -> x_chunk y = []) /\
  inv hs' (Some (g', l')) y /\ concat (map fst (hs' ++ [(g', l')])) = concat (map fst (hs ++ opt c)) ++ [s].
Proof.
  intros IV HN WS. unfold feed, push_string. cbn [x_entries x_chunk x_chunks x_states x_forms x_line x_prev x_page recast].
  match goal with |- context [try_add_entry e a ?X s] => set (x1 := X) end.
  assert (I1 : inv hs c x1).
  { destruct IV as (HI & W & P & R). split; [exact HI|]. split; [exact W|]. split; [|exact R]. destruct c as [[g l]|]; [|exact P]. destruct P as (L & FN & g0 & p & G & LN & PR).
    split; [exact L|]. split; [exact FN|]. exists g0, p. split; [exact G|]. subst x1. cbn [x_line x_prev]. rewrite LN. auto. }
  destruct (try_add_ready hs c s x1 I1 HN eq_refl WS) as (y & TY & RY). rewrite TY. cbn [bind].
  destruct RY as (hs' & g' & l' & _ & GG & HI & W & L & N & (g0 & G0) & rs & F & E).
  match goal with |- exists z _ _ _, Ok ?Z = Ok z /\ _ => set (y1 := Z) end. exists y1, hs', g', l'. split; [reflexivity|].
  assert (EY : x_entries y1 = x_entries y) by (subst y1; destruct b; reflexivity).
  assert (LY : x_line y1 = Some (snd (ss_at s))) by (subst y1; destruct b; reflexivity).
  assert (CY : current y = ss_state s).
  { revert TY. clear. intro T. assert (RY : x1 = recast x1 [ss_state s] [] 0) by reflexivity. rewrite RY in T. rewrite try_add_recast in T by reflexivity.
    destruct (try_add_entry e a x1 s); try discriminate T. cbn [bind] in T. apply ok_inj in T. rewrite <- T. reflexivity. }
  assert (PY : x_prev y1 = ss_end s).
  { unfold ss_end. rewrite <- CY. subst y1. destruct b; reflexivity. }
  split. { intros ->. reflexivity. }
  split.
  - split; [exact HI|]. split; [exact W|]. split; [|exists rs; rewrite EY; auto]. split; [|split].
    + subst y1. destruct b; cbn [x_chunks x_chunk set_current push_chunk put]; [rewrite concat_app; cbn [concat]; rewrite !app_nil_r|]; exact L.
    + subst y1. destruct b; cbn [x_chunks x_chunk set_current push_chunk put]; [|exact N]. apply Forall_app. split; [exact N|]. constructor; [|constructor].
      intro X. apply app_eq_nil in X as (_ & X). discriminate.
    + exists g0, s. auto.
  - rewrite map_app, concat_app. cbn [map concat fst]. rewrite app_nil_r. exact GG.
Qed.
Lemma play_ok evs : forall hs c x, inv hs c x -> (c = None -> hs = []) -> Forall ok (strings_of evs) -> exists y hs' c', play e a x evs = Ok y /\ inv hs' c' y /\ (c' = None -> hs' = []) /\
  concat (map fst (hs' ++ opt c')) = concat (map fst (hs ++ opt c)) ++ strings_of evs /\ (closed evs -> evs <> [] -> x_chunk y = []).
Proof.
  induction evs as [|[s b|] evs IH]; intros hs c x IV HN W.
  - exists x, hs, c. split; [reflexivity|]. split; [exact IV|]. split; [exact HN|]. split; [cbn; rewrite app_nil_r; reflexivity|congruence].
  - unfold strings_of in *. cbn [map concat app] in *. inversion W as [|? ? WS WR]; subst. destruct (feed_ok hs c s b x IV HN WS) as (y & hs1 & g1 & l1 & FY & BY & IY & EQ). cbn [play]. rewrite FY. cbn [bind].
    destruct (IH hs1 (Some (g1, l1)) y IY ltac:(discriminate) WR) as (z & hs' & c' & PZ & IZ & NZ & EZ & CZ). exists z, hs', c'. split; [exact PZ|]. split; [exact IZ|]. split; [exact NZ|]. split.
    + rewrite EZ. cbn [opt]. rewrite EQ, <- app_assoc. reflexivity.
    + intros CL _. destruct evs as [|v evs].
      * cbn [play] in PZ. injection PZ as <-. destruct CL as [CL|(l & v & CL & CV)]; [discriminate|]. destruct l as [|? [|? ?]]; try discriminate. injection CL as <-.
        destruct CV as [CV|(s0 & CV)]; [discriminate|]. injection CV as _ ->. apply BY; reflexivity.
      * apply CZ; [|discriminate]. destruct CL as [CL|(l & v0 & CL & CV)]; [discriminate|]. right. destruct l as [|u l]; [discriminate|]. injection CL as _ CL. exists l, v0. auto.
  - unfold strings_of in *. cbn [map concat app] in *. cbn [play].
    destruct (try_push_inv hs c x IV) as (J & C1).
    destruct (IH hs c _ J HN W) as (z & hs' & c' & PZ & IZ & NZ & EZ & CZ). exists z, hs', c'. split; [exact PZ|]. split; [exact IZ|]. split; [exact NZ|]. split; [exact EZ|].
    intros CL _. destruct evs as [|v evs].
    + cbn [play] in PZ. injection PZ as <-. exact C1.
    + apply CZ; [|discriminate]. destruct CL as [CL|(l & v0 & CL & CV)]; [discriminate|]. right. destruct l as [|u l]; [discriminate|]. injection CL as _ CL. exists l, v0. auto.
Qed.
(** A page from its beginning to its end *)
Lemma page_groups pg evs : closed evs -> Forall ok (strings_of evs) -> exists y h rs, play e a (new_context pg) evs = Ok y /\
  (match x_chunks y with [] => Ok (x_entries y) | _ => do z <- flush e a y; Ok (x_entries z) end) = Ok (concat (map snd rs)) /\
  concat (map fst h) = strings_of evs /\ hist e a h /\ Forall (fun h => Forall ok (fst h)) h /\ Forall2 group_ok h rs.
Proof.
  intros CL W. assert (I0 : inv [] None (new_context pg)).
  { split; [constructor|]. split; [constructor|]. split; [split; reflexivity|]. exists []. split; [constructor|reflexivity]. }
  destruct (play_ok evs [] None (new_context pg) I0 (fun _ => eq_refl) W) as (y & hs & c & PY & IY & NY & EY & CY). cbn [concat app opt map] in EY.
  assert (XC : x_chunk y = []).
  { destruct evs as [|v evs]; [cbn [play] in PY; injection PY as <-; reflexivity|]. apply CY; [exact CL|discriminate]. }
  destruct c as [[g l]|]; cbn [opt] in *.
  - pose proof (flush_ok hs g l y IY XC) as (z & FZ & _ & _ & rs & F & E). exists y, (hs ++ [(g, l)]), rs. split; [exact PY|]. destruct IY as (HI & WI & (L & _) & _). split.
    + rewrite FZ. cbn [bind]. rewrite <- E. destruct (x_chunks y) eqn:K; [|reflexivity]. exfalso. rewrite XC in L. cbn in L. subst l. apply last_spaced, spaced_ne in HI. apply HI. reflexivity.
    + auto.
  - rewrite (NY eq_refl) in *. destruct IY as (HI & WI & (K1 & _) & rs & F & E). inversion F; subst. exists y, [], []. split; [exact PY|]. rewrite K1, E. split; [reflexivity|]. split; [exact EY|]. auto.
Qed.
End Group.
