(** Property C165: errors tell what and where *)
From Coq Require Import String.
From Verif Require Import Base ErrorModel ErrorSpec.
Local Open Scope Z_scope.

(** Every code but two is told by its name *)
Theorem C165_names_partial c : c <> CInvalidStreamLength -> c <> CXmpMetadata -> error_name c = Some (qualified (declared c)).
Proof. intros A B. destruct c; try reflexivity; [destruct (A eq_refl)|destruct (B eq_refl)]. Qed.
Print Assumptions C165_names_partial.
Theorem C165_distinct_partial a b : a <> CInvalidStreamLength -> b <> CInvalidStreamLength -> error_name a = error_name b -> a = b.
Proof.
  intros A B E.
  assert (Q : beq (declared a) (declared b) = true).
  { destruct a; try (destruct (A eq_refl)); destruct b; try (destruct (B eq_refl)); try (vm_compute in E; discriminate E); reflexivity. }
  destruct a, b; try reflexivity; vm_compute in Q; discriminate Q.
Qed.
Print Assumptions C165_distinct_partial.

(** Two codes have no name of their own: one has that of another, and for the other a null pointer is the description *)
Theorem C165_stream_refuted : error_name CInvalidStreamLength = error_name CInvalidStream /\ declared CInvalidStreamLength <> declared CInvalidStream.
Proof. split; [reflexivity|]. vm_compute. discriminate. Qed.
Print Assumptions C165_stream_refuted.
Theorem C165_what_refuted c : what c = None <-> c = CXmpMetadata.
Proof. split; [destruct c; try discriminate; reflexivity|intros ->; reflexivity]. Qed.
Print Assumptions C165_what_refuted.
(** The codes without a message *)
Theorem C165_messages_refuted c : error_message c = None <->
  In c [CInvalidTrailerSize; CInvalidDataType; CInvalidXRef; CInvalidXRefStream; CInvalidXRefType; CInvalidPredictor; CInvalidStrokeStyle; CInvalidHexString;
        CInvalidStream; CInvalidStreamLength; CInvalidKey; CInvalidName; CUnsupportedFilter; CMissingEndStream; CDate].
Proof.
  split.
  - destruct c; try discriminate; intros _; cbn; tauto.
  - intros I. repeat (destruct I as [<-|I]; [reflexivity|]). destruct I.
Qed.
Print Assumptions C165_messages_refuted.

(** The frames are those that were added, the last first, whatever was added *)
Theorem C165_frames c p i l : let e := fold_left (fun e x => add_frame e (fst x) (snd x)) l (raise c p i) in
  e_code e = c /\ map (fun f => (f_path f, f_info f)) (e_frames e) = rev l ++ [(p, i)].
Proof.
  cbv zeta. enough (H : forall l e, e_code (fold_left (fun e x => add_frame e (fst x) (snd x)) l e) = e_code e /\
    map (fun f => (f_path f, f_info f)) (e_frames (fold_left (fun e x => add_frame e (fst x) (snd x)) l e)) = rev l ++ map (fun f => (f_path f, f_info f)) (e_frames e)).
  { exact (H l (raise c p i)). }
  clear. induction l as [|[p i] l IH]; intros e; [split; reflexivity|]. cbn [fold_left fst snd]. destruct (IH (add_frame e p i)) as [A B].
  split; [exact A|]. rewrite B. cbn [e_frames add_frame map rev f_path f_info]. rewrite <- app_assoc. reflexivity.
Qed.
Print Assumptions C165_frames.

(** Files of the library are told by their path in it; printing then gets to the end *)
Theorem C165_path dir rest f : under dir rest (f_path f) -> file_path (length dir + 1) f = Done rest.
Proof.
  unfold under, file_path. intros ->. rewrite app_length. cbn [length].
  destruct (length dir + S (length rest) <? length dir + 1)%nat eqn:E; [apply Nat.ltb_lt in E; lia|]. f_equal.
  replace (length dir + 1)%nat with (length (dir ++ [47])) by (rewrite app_length; reflexivity).
  replace (dir ++ 47 :: rest) with ((dir ++ [47]) ++ rest) by (rewrite <- app_assoc; reflexivity).
  rewrite skipn_app, skipn_all, Nat.sub_diag. reflexivity.
Qed.
Print Assumptions C165_path.
(** Printing gets to the end exactly when no file has a shorter path than the sources; other files may have one *)
Theorem C165_print off e : print_error off e = Done tt <-> Forall (fun f => (off <= length (f_path f))%nat) (e_frames e).
Proof.
  unfold print_error. induction (e_frames e) as [|f l IH]; cbn [print_frames]; [split; [constructor|reflexivity]|]. unfold file_path.
  destruct (length (f_path f) <? off)%nat eqn:E.
  - apply Nat.ltb_lt in E. split; [discriminate|]. intros F. inversion F as [|? ? A B]; subst. lia.
  - apply Nat.ltb_ge in E. rewrite IH. split; [intros F; constructor; assumption|]. intros F. inversion F; assumption.
Qed.
Print Assumptions C165_print.
Theorem C165_print_refuted : let dir := bs "/usr/src/pdfmm/src/pdfmm" in exists e,
  e_frames (add_frame e (bs "/app/main.cpp") []) <> [] /\ print_error (length dir + 1) e = Done tt /\
  print_error (length dir + 1) (add_frame e (bs "/app/main.cpp") []) = OutOfRange.
Proof. exists (raise CNoXRef (bs "/usr/src/pdfmm/src/pdfmm/base/PdfParser.cpp") []). split; [discriminate|]. split; reflexivity. Qed.
Print Assumptions C165_print_refuted.

Example C165_case :
  error_name CNoXRef = Some (bs "PdfErrorCode::NoXRef") /\ length codes = 52%nat /\
  file_path 25 (mk_frame (bs "/usr/src/pdfmm/src/pdfmm/base/PdfParser.cpp") []) = Done (bs "base/PdfParser.cpp") /\
  file_path 25 (mk_frame (bs "/usr/src/application/main.cpp") []) = Done (bs ".cpp").
Proof. repeat split; vm_compute; reflexivity. Qed.
