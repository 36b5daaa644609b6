(** C85-C89: interviews.  Statements only; proofs are in InterviewData.v and InterviewVisit.v. *)
From Coq Require Import String ZArith List Bool Lia.
From Verif Require Import Py Schema Registry Codec Waiter Conn NodeReq ClassProofs InterviewM SpecInterview.
From Verif Require InterviewProofs InterviewData InterviewVisit.
Import ListNotations.
Open Scope list_scope.
Open Scope string_scope.
Open Scope list_scope.
Open Scope Z_scope.

(** ** runs used below *)
Definition fresh_node (_ : Z) : kcls := k_new.
Definition got (bs : list Z) : val := match decode bs with Ok m => m | Err _ => VNone end.
(** request [u] is acknowledged, answered with [bs], and goes on *)
Definition reply (u : nat) (bs : list Z) : list ievent := [INet (NEvSent u (Ok true)); INet (NEvMessage (got bs)); INet (NEvResume u)].
(** request [u] is acknowledged and not answered *)
Definition silence (u : nat) : list ievent := [INet (NEvSent u (Ok true)); INet (NEvAdvance 3000); INet (NEvTimer u); INet (NEvResume u); INet (NEvResume u)].
Lemma wire_run ids cls es s tr : iexec (istate0 ids cls) es s tr -> (forall m, In (INet (NEvMessage m)) es -> exists bs, Forall byte bs /\ decode bs = Ok m) -> from_wire tr.
Proof. intros X H n m r J. apply H. eapply InterviewVisit.recv_event; eassumption. Qed.
Ltac messages J := cbn [app reply silence In] in J; repeat (destruct J as [J|J]; [first [discriminate J|injection J as <-]|]); try (destruct J; fail).
Ltac wire X := eapply wire_run; [exact X|]; let J := fresh in intros m J; messages J;
  match goal with |- exists bs, _ /\ decode bs = Ok (got ?l) => exists l; split; [repeat constructor; lia|vm_compute; reflexivity] end.

Lemma sound_fresh : sound fresh_node.
Proof. intros id w f sz _. left. reflexivity. Qed.
Ltac start X := eexists _, _; match goal with |- ?P /\ _ => assert (X : P) by (apply InterviewVisit.irun_exec; vm_compute; reflexivity) end; split; [exact X|].
(** [tr] is a concrete list: try all ways to split it *)
Ltac splits E := repeat match type of E with
  | [] = ?a ++ _ :: _ => destruct a; discriminate E
  | _ :: _ = ?a ++ _ :: _ => destruct a; [cbn [app] in E; first [discriminate E|idtac]|cbn [app] in E; injection E as <- E]
  end.

(** ** C85 *)
(** the report about class 37 comes too late and is taken for the answer about class 114 *)
Definition x_late : list ievent := [ICall CNode] ++ reply 0 [134; 20; 134; 3] ++ reply 1 [134; 18; 3; 4; 5; 6; 7] ++ silence 2 ++ reply 3 [134; 20; 37; 1].
Theorem C85_refuted : exists s tr, iexec (istate0 [134; 37; 114] fresh_node) x_late s tr /\ from_wire tr /\ k_version (i_cls s 114) = 1 /\ k_version (i_cls s 37) = 0 /\
  forall n m r, In (n, ONet (NRecv m r)) tr -> hid m = 134 * 256 + 20 -> getattr m "requestedCommandClass" = VI false 1 134 \/ getattr m "requestedCommandClass" = VI false 1 37.
Proof.
  eexists _, _. match goal with |- ?P /\ _ => assert (X : P) by (apply InterviewVisit.irun_exec; vm_compute; reflexivity) end. split; [exact X|]. split; [wire X|]. split; [vm_compute; reflexivity|]. split; [vm_compute; reflexivity|].
  intros n m r J H. apply (InterviewVisit.recv_event _ _ _ _ _ _ _ _ X) in J. messages J; try (vm_compute in H; discriminate H); vm_compute; auto.
Qed.
Print Assumptions C85_refuted.
(** The recorded version is the last value returned to a version question about the class, and the message it is from came after the question was
    acknowledged.  Missing: that this message is about the class, which is not checked. *)
Theorem C85_partial : forall ids cls es s tr id, iexec (istate0 ids cls) es s tr -> from_wire tr -> byte id ->
  k_version (i_cls s id) = last (values "commandClassVersion" (answers (version_question id) tr)) (k_version (cls id)) /\
  forall m, In m (answers (version_question id) tr) -> fresh_answer (version_question id) (134 * 256 + 20) m tr.
Proof. intros ids cls es s tr id X W B. split; [exact (InterviewData.version_exec _ _ _ _ _ _ X W B)|intros m; exact (InterviewVisit.version_fresh _ _ _ _ _ _ _ X)]. Qed.
Print Assumptions C85_partial.
(** with one version question at a time and a node that only reports the class asked about last, versions are not mixed up *)
Theorem C85_prompt_partial : forall ids cls es s tr id m, iexec (istate0 ids cls) es s tr -> one_at_a_time tr -> prompt_node tr -> In m (answers (version_question id) tr) ->
  getattr m "requestedCommandClass" = VI false 1 id.
Proof. exact InterviewVisit.version_named. Qed.
Print Assumptions C85_prompt_partial.
(** the hypotheses of the two can be met *)
Definition x_one : list ievent := [ICall (CVersion 37)] ++ reply 0 [134; 20; 37; 1].
Example C85_partial_ex : exists s tr, iexec (istate0 [134; 37] fresh_node) x_one s tr /\ from_wire tr /\ answers (version_question 37) tr = [got [134; 20; 37; 1]] /\ k_version (i_cls s 37) = 1.
Proof. start X. split; [wire X|]. split; vm_compute; reflexivity. Qed.
Example C85_prompt_partial_ex : exists s tr, iexec (istate0 [134; 37] fresh_node) x_one s tr /\ one_at_a_time tr /\ prompt_node tr /\ answers (version_question 37) tr <> [].
Proof.
  start X. split; [|split; [|vm_compute; discriminate]].
  - apply InterviewVisit.one_ask. vm_compute. lia.
  - intros a n m r b E H. exists 37. pose proof E as E0. splits E. injection E as <- <- <- <-. split.
    + eexists [_], _, _, _, _, _. split; [cbn [app]; reflexivity|]. split; [vm_compute; reflexivity|]. intros n2 t2 u2 q2 id2 J. cbn in J. repeat (destruct J as [J|J]; [discriminate J|]). destruct J.
    + vm_compute. reflexivity.
Qed.

(** ** C86 *)
(** a cut report of one class keeps the others from being interviewed *)
Definition x_cut : list ievent := [ICall CNode] ++ reply 0 [134; 20; 134; 3] ++ reply 1 [134; 18; 3].
Theorem C86_refuted : exists s tr, iexec (istate0 [134; 37] fresh_node) x_cut s tr /\ from_wire tr /\ In (0, ODone 0 (Err EType)) tr /\ visits 0 tr = [134].
Proof. start X. split; [wire X|]. split; [vm_compute; tauto|vm_compute; reflexivity]. Qed.
Print Assumptions C86_refuted.
(** Classes are interviewed in order and none is left out unless the call raises; it raises nothing but what a request or an interview raised, except after a cut
    report; time outs do not stop it.  Missing: going on after such an exception. *)
Theorem C86_partial : forall ids cls es s tr n t, iexec (istate0 ids cls) es s tr -> from_wire tr -> sound cls -> In (n, OCall t CNode) tr ->
  (exists rest, visits t tr ++ rest = ids) /\
  forall n' r, In (n', ODone t r) tr -> match r with Ok _ => visits t tr = ids | Err e => e <> ETimeout /\ cause t e es tr end.
Proof. exact InterviewVisit.visits_exec. Qed.
Print Assumptions C86_partial.
(** all requests but one time out *)
Definition x_slow : list ievent := [ICall CNode] ++ silence 0 ++ reply 1 [134; 20; 37; 1] ++ silence 2.
Example C86_partial_ex : exists s tr, iexec (istate0 [134; 37; 114] fresh_node) x_slow s tr /\ from_wire tr /\ sound fresh_node /\ In (0, OCall 0 CNode) tr /\ In (6000, ODone 0 (Ok VNode)) tr /\ visits 0 tr = [134; 37; 114].
Proof. start X. split; [wire X|]. split; [exact sound_fresh|]. split; [vm_compute; tauto|]. split; [vm_compute; tauto|vm_compute; reflexivity]. Qed.

(** ** C87 *)
(** a second report that is cut leaves a mixture *)
Definition x_mix : list ievent := [ICall (CClass 134)] ++ reply 0 [134; 20; 134; 3] ++ reply 1 [134; 18; 3; 4; 5; 6; 7] ++ [ICall (CClass 134)] ++ reply 2 [134; 18; 9].
Theorem C87_refuted : exists s tr, iexec (istate0 [134] fresh_node) x_mix s tr /\ from_wire tr /\
  aget "zwaveLibraryType" (k_attrs (i_cls s 134)) = Some (VI false 1 9) /\ aget "applicationVersion" (k_attrs (i_cls s 134)) = Some (VI false 1 6) /\
  forall n m r, In (n, ONet (NRecv m r)) tr -> ~ (getattr m "zwaveLibraryType" = VI false 1 9 /\ getattr m "applicationVersion" = VI false 1 6).
Proof.
  start X. split; [wire X|]. split; [vm_compute; reflexivity|]. split; [vm_compute; reflexivity|].
  intros n m r J [A B]. apply (InterviewVisit.recv_event _ _ _ _ _ _ _ _ X) in J. messages J; vm_compute in A, B; discriminate.
Qed.
Print Assumptions C87_refuted.
(** Each attribute is the value last reported in answer to the class's own question, in a message that came after the question was acknowledged.
    Missing: that all are from the same report. *)
Theorem C87_partial : forall ids cls es s tr id w f sz, iexec (istate0 ids cls) es s tr -> from_wire tr -> sound cls -> copies id w f sz ->
  aget f (k_attrs (i_cls s id)) = last (map (fun z => Some (VI false sz z)) (values f (answers w tr))) (aget f (k_attrs (cls id))) /\
  forall m, In m (answers w tr) -> exists h, In f (due h) /\ fresh_answer w h m tr.
Proof. exact InterviewVisit.mixed_exec. Qed.
Print Assumptions C87_partial.
(** they are if the last report was complete *)
Theorem C87_complete_partial : forall ids cls es s tr id w l m, iexec (istate0 ids cls) es s tr -> from_wire tr -> sound cls -> answers w tr = l ++ [m] -> ~ incomplete m ->
  forall f sz, copies id w f sz -> aget f (k_attrs (i_cls s id)) = Some (getattr m f).
Proof. exact InterviewVisit.attr_complete. Qed.
Print Assumptions C87_complete_partial.
Definition x_good : list ievent := [ICall CNode] ++ reply 0 [134; 20; 134; 3] ++ reply 1 [134; 18; 3; 4; 5; 6; 7].
Example C87_complete_partial_ex : exists s tr, iexec (istate0 [134] fresh_node) x_good s tr /\ from_wire tr /\ sound fresh_node /\ answers [134; 17] tr = [] ++ [got [134; 18; 3; 4; 5; 6; 7]] /\
  ~ incomplete (got [134; 18; 3; 4; 5; 6; 7]) /\ copies 134 [134; 17] "applicationVersion" 1 /\ aget "applicationVersion" (k_attrs (i_cls s 134)) = Some (VI false 1 6).
Proof.
  start X. split; [wire X|]. split; [exact sound_fresh|]. split; [vm_compute; reflexivity|]. split; [|split; [constructor; cbn; tauto|vm_compute; reflexivity]].
  intros (f & J & N). vm_compute in J. repeat (destruct J as [<-|J]; [vm_compute in N; discriminate N|]). destruct J.
Qed.

(** ** C88 *)
(** a repeated interview that times out takes the flag away without a signal *)
Theorem C88_flag_refuted : exists s tr s' tr', iexec (istate0 [134] fresh_node) x_good s tr /\ iexec (istate0 [134] fresh_node) (x_good ++ [ICall (CClass 134)] ++ silence 2) s' (tr ++ tr') /\ from_wire (tr ++ tr') /\
  k_interviewed (i_cls s 134) = true /\ k_interviewed (i_cls s' 134) = false /\ (exists n r, In (n, ODone 1 (Ok r)) tr') /\ forall n id, ~ In (n, OUpdated id) tr'.
Proof.
  eexists _, _, _, ?[tr']. split; [apply InterviewVisit.irun_exec; vm_compute; reflexivity|].
  match goal with |- ?P /\ _ => assert (X : P) by (apply InterviewVisit.irun_exec; vm_compute; reflexivity) end. split; [exact X|]. split; [wire X|]. split; [vm_compute; reflexivity|]. split; [vm_compute; reflexivity|].
  split; [eexists _, _; vm_compute; tauto|]. intros n id J. vm_compute in J. repeat (destruct J as [J|J]; [discriminate J|]). destruct J.
Qed.
Print Assumptions C88_flag_refuted.
(** a cut report changes attributes without a signal *)
Theorem C88_attrs_refuted : exists s tr s' tr', iexec (istate0 [134] fresh_node) x_good s tr /\ iexec (istate0 [134] fresh_node) (x_good ++ [ICall (CClass 134)] ++ reply 2 [134; 18; 9]) s' (tr ++ tr') /\ from_wire (tr ++ tr') /\
  aget "zwaveLibraryType" (k_attrs (i_cls s 134)) = Some (VI false 1 3) /\ aget "zwaveLibraryType" (k_attrs (i_cls s' 134)) = Some (VI false 1 9) /\ (exists n r, In (n, ODone 1 r) tr') /\ forall n id, ~ In (n, OUpdated id) tr'.
Proof.
  eexists _, _, _, ?[tr']. split; [apply InterviewVisit.irun_exec; vm_compute; reflexivity|].
  match goal with |- ?P /\ _ => assert (X : P) by (apply InterviewVisit.irun_exec; vm_compute; reflexivity) end. split; [exact X|]. split; [wire X|]. split; [vm_compute; reflexivity|]. split; [vm_compute; reflexivity|].
  split; [eexists _, _; vm_compute; tauto|]. intros n id J. vm_compute in J. repeat (destruct J as [J|J]; [discriminate J|]). destruct J.
Qed.
Print Assumptions C88_attrs_refuted.
(** A step without a signal for a class leaves its version as it is, sets no flag, and leaves the attributes alone unless a cut report was returned in it.
    Missing: those attributes, and the flag being taken away. *)
Theorem C88_partial : forall ids cls es s tr e s' os, iexec (istate0 ids cls) es s tr -> istep s e = Some (s', os) -> from_wire (tr ++ istamp (n_now (i_net s)) os) -> sound cls ->
  forall id, ~ In (OUpdated id) os -> k_version (i_cls s' id) = k_version (i_cls s id) /\ (k_interviewed (i_cls s' id) = true -> k_interviewed (i_cls s id) = true) /\
  (k_attrs (i_cls s' id) = k_attrs (i_cls s id) \/ exists u m, In (ONet (NRet u (RMsg m))) os /\ incomplete m /\ exists w f sz, copies id w f sz /\ In f (due (hid m))).
Proof. exact InterviewVisit.signals_exec. Qed.
Print Assumptions C88_partial.
(** the step after the version report: class 134 is signalled, class 37 is not *)
Example C88_partial_ex : exists s tr s' os, iexec (istate0 [134; 37] fresh_node) ([ICall CNode] ++ removelast (reply 0 [134; 20; 134; 3])) s tr /\ istep s (INet (NEvResume 0)) = Some (s', os) /\
  from_wire (tr ++ istamp (n_now (i_net s)) os) /\ In (OUpdated 134) os /\ ~ In (OUpdated 37) os.
Proof.
  eexists _, _, _, _. match goal with |- ?P /\ _ => assert (X : P) by (apply InterviewVisit.irun_exec; vm_compute; reflexivity) end. split; [exact X|].
  match goal with |- ?P /\ _ => assert (S : P) by (vm_compute; reflexivity) end. split; [exact S|]. split; [|split; [vm_compute; tauto|intros J; vm_compute in J; repeat (destruct J as [J|J]; [discriminate J|]); destruct J]].
  eapply wire_run; [econstructor; [exact X|exact S]|]. intros m J. messages J. exists [134; 20; 134; 3]. split; [repeat constructor; lia|vm_compute; reflexivity].
Qed.

(** ** C89 *)
Theorem C89_interviewed : forall ids cls es s tr, iexec (istate0 ids cls) es s tr -> from_wire tr -> sound cls ->
  (forall id w f sz, k_interviewed (cls id) = true -> copies id w f sz -> aget f (k_attrs (cls id)) <> None) ->
  forall id w f sz, k_interviewed (i_cls s id) = true -> copies id w f sz -> exists z, aget f (k_attrs (i_cls s id)) = Some (VI false sz z).
Proof. exact InterviewVisit.flag_values. Qed.
Print Assumptions C89_interviewed.
Example C89_interviewed_ex : exists s tr, iexec (istate0 [134] fresh_node) x_good s tr /\ from_wire tr /\ sound fresh_node /\
  (forall id w f sz, k_interviewed (fresh_node id) = true -> copies id w f sz -> aget f (k_attrs (fresh_node id)) <> None) /\ k_interviewed (i_cls s 134) = true /\ copies 134 [134; 17] "zwaveLibraryType" 1.
Proof. start X. split; [wire X|]. split; [exact sound_fresh|]. split; [discriminate|]. split; [vm_compute; reflexivity|]. constructor. cbn. tauto. Qed.
