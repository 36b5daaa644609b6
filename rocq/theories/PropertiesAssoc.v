(** C112-C114: interviews of associations and sensors.  Statements only; proofs are in AssocData.v, AssocFresh.v, AssocCourse.v and AssocLife.v. *)
From Coq Require Import String ZArith List Bool Lia.
From Verif Require Import Py Schema Registry Codec Waiter Conn NodeReq NodeM CmdClass AssocM SpecAssoc.
From Verif Require AssocData AssocFresh AssocCourse AssocLife.
Import ListNotations.
Open Scope list_scope.
Open Scope string_scope.
Open Scope list_scope.
Open Scope Z_scope.

(** ** runs used below *)
Definition old_node : classes := mkCls [(133, false)] [].
Definition plus_node : classes := mkCls [(94, false); (133, false)] [].
Definition heard (bs : list Z) : val := match decode bs with Ok m => m | Err _ => VNone end.
(** request [u] is acknowledged, answered with [bs], and goes on *)
Definition reply (u : nat) (bs : list Z) : list pevent := [PNet (NEvSent u (Ok true)); PNet (NEvMessage (heard bs)); PNet (NEvResume u)].
Lemma wire_run s0 es s tr : pexec s0 es s tr -> (forall m, In (PNet (NEvMessage m)) es -> exists bs, Forall byte bs /\ decode bs = Ok m) -> from_wire tr.
Proof. intros X H n m r J. apply H. eapply AssocLife.recv_event; eassumption. Qed.
Ltac messages J := cbn [app reply In] in J; repeat (destruct J as [J|J]; [first [discriminate J|injection J as <-]|]); try (destruct J; fail).
Ltac wire X := eapply wire_run; [exact X|]; let J := fresh in intros m J; messages J;
  match goal with |- exists bs, _ /\ decode bs = Ok (heard ?l) => exists l; split; [unfold byte; repeat constructor; lia|vm_compute; reflexivity] end.
Ltac start X := eexists _, _; match goal with |- ?P /\ _ => assert (X : P) by (apply AssocFresh.prun_exec; vm_compute; reflexivity) end; split; [exact X|].
(** [tr] is a concrete list: try all ways to split it *)
Ltac splits E := repeat match type of E with
  | [] = ?a ++ _ :: _ => destruct a; discriminate E
  | _ :: _ = ?a ++ _ :: _ => destruct a; [cbn [app] in E; first [discriminate E|idtac]|cbn [app] in E; injection E as <- E]
  end.

(** ** C112 *)
(** a list that does not fit in one report: the second part is taken for the answer about the next group and dropped *)
Definition x_frames : list pevent :=
  [PCall PAssoc] ++ reply 0 [133; 6; 2] ++
  [PNet (NEvSent 1 (Ok true)); PNet (NEvMessage (heard [133; 3; 1; 10; 1; 2; 3])); PNet (NEvResume 1)] ++ reply 2 [133; 3; 1; 10; 0; 4].
Theorem C112_frames_refuted : ~ forall c es s tr i t n, pexec (pstate0 c [] []) es s tr -> from_wire tr -> assoc_calls tr = [t] -> In (n, PODone t (Ok tt)) tr ->
  told_once c i tr -> exists g, dget Z.eqb i (p_groups s) = Some g /\ g_nodes g = members c i tr.
Proof.
  intros H. assert (W : exists s tr, pexec (pstate0 old_node [] []) x_frames s tr /\ from_wire tr /\ assoc_calls tr = [0%nat] /\ In (0, PODone 0 (Ok tt)) tr /\ told_once old_node 1 tr /\
    dget Z.eqb 1 (p_groups s) = Some (mkG 10 [(2, None); (3, None)]) /\ members old_node 1 tr = [(2, None); (3, None); (4, None)]).
  { start X. split; [wire X|]. split; [vm_compute; reflexivity|]. split; [vm_compute; tauto|]. split; [|split; vm_compute; reflexivity].
    exists [heard [133; 3; 1; 10; 1; 2; 3]], (heard [133; 3; 1; 10; 0; 4]). split; [vm_compute; reflexivity|]. split; vm_compute; reflexivity. }
  destruct W as (s & tr & X & W & C & D & O & G & M). destruct (H _ _ _ _ _ _ _ X W C D O) as (g & G' & N). rewrite G in G'. injection G' as <-. rewrite M in N. discriminate N.
Qed.
Print Assumptions C112_frames_refuted.
(** two interviews at a time: the second one hears of one more group while the first goes through the groups, which ends the first; every question was answered *)
Definition x_overlap : list pevent :=
  [PCall PAssoc] ++ reply 0 [133; 6; 2] ++ [PCall PAssoc] ++ reply 2 [133; 6; 3] ++ reply 1 [133; 3; 1; 10; 0; 1].
Theorem C112_overlap_refuted : ~ forall c es s tr n n' t e, pexec (pstate0 c [] []) es s tr -> from_wire tr -> In (n, POCall t PAssoc) tr -> In (n', PODone t (Err e)) tr ->
  exists n u q, In (n, POAsk t u q) tr /\ forall n m, ~ In (n, PONet (NRet u (RMsg m))) tr.
Proof.
  intros H. assert (W : exists s tr, pexec (pstate0 old_node [] []) x_overlap s tr /\ from_wire tr /\ In (0, POCall 0 PAssoc) tr /\ In (0, PODone 0 (Err ERuntime)) tr /\
    (forall n u q, In (n, POAsk 0 u q) tr -> exists n m, In (n, PONet (NRet u (RMsg m))) tr)).
  { start X. split; [wire X|]. split; [vm_compute; tauto|]. split; [vm_compute; tauto|].
    intros n u q J. assert (U : u = 0%nat \/ u = 1%nat).
    { cbn [In] in J. repeat (destruct J as [J|J]; [try discriminate J; injection J as <- <- <-; auto|]). destruct J. }
    destruct U as [-> | ->]; [exists 0, (heard [133; 6; 2])|exists 0, (heard [133; 3; 1; 10; 0; 1])]; vm_compute; tauto. }
  destruct W as (s & tr & X & W & C & D & O). destruct (H _ _ _ _ _ _ _ _ X W C D) as (n & u & q & J & N). destruct (O _ _ _ J) as (n' & m & K). exact (N _ _ K).
Qed.
Print Assumptions C112_overlap_refuted.
(** A group is known if it was known before or the node counted it; it holds what the last answer to a question about it says about it, an answer about another
    group changes nothing; the answers came after the questions were acknowledged.  Missing: lists in several reports. *)
Theorem C112_partial : forall c gs ts es s tr i, pexec (pstate0 c gs ts) es s tr -> from_wire tr -> byte i ->
  dget Z.eqb i (p_groups s) = known_group c gs i tr /\
  (forall m, In m (answers (group_question c i) tr) -> fresh_answer (group_question c i) (group_report c) m tr) /\
  (forall m, In m (answers count_question tr) -> fresh_answer count_question (133 * 256 + 6) m tr).
Proof.
  intros c gs ts es s tr i X W B. split; [exact (proj1 (proj1 (AssocData.tables_exec _ _ _ _ _ _ X W) i B))|]. split; intros m.
  - exact (AssocFresh.group_fresh _ _ _ _ _ _ _ _ X B).
  - exact (AssocFresh.count_fresh _ _ _ _ _ _ _ X).
Qed.
Print Assumptions C112_partial.
(** An interview that returns has asked for every group known before and every group the node counted in its answer, each once and for no others; if it sent the
    lifeline command it asked for group 1 again after that, otherwise not. *)
Theorem C112_asked_partial : forall c gs ts es s tr t n n', pexec (pstate0 c gs ts) es s tr -> from_wire tr -> In (n, POCall t PAssoc) tr -> In (n', PODone t (Ok tt)) tr ->
  exists ks extra, asks_groups c (questions t tr) (ks ++ extra) /\ (NoDup (map fst gs) -> NoDup ks) /\ incl (map fst gs) ks /\ (forall k, In k ks -> In k (map fst gs) \/ counted k tr = true) /\
    (exists m z, got_back t count_question (RMsg m) tr /\ number "supportedGroupings" m = [z] /\ forall i, 1 <= i <= z -> In i ks) /\
    (extra = [] /\ sends t tr = [] \/ extra = [1] /\ exists q, sends t tr = [q] /\ says q (lifeline_command c) = true).
Proof. exact AssocLife.groups_asked. Qed.
Print Assumptions C112_asked_partial.
(** an interview that raises does so for one of these reasons *)
Theorem C112_cause_partial : forall c gs ts es s tr t n n' e, pexec (pstate0 c gs ts) es s tr -> from_wire tr -> In (n, POCall t PAssoc) tr -> In (n', PODone t (Err e)) tr -> assoc_cause c t e tr.
Proof. exact AssocLife.groups_failed. Qed.
Print Assumptions C112_cause_partial.
(** with one question about a group at a time and a node that only reports the group asked about last, a group holds what its last answer says *)
Theorem C112_prompt_partial : forall c gs ts es s tr i l m, pexec (pstate0 c gs ts) es s tr -> from_wire tr -> byte i -> one_at_a_time (group_question c) tr ->
  prompt_node (group_question c) (group_report c) "groupingIdentifier" tr -> answers (group_question c i) tr = l ++ [m] ->
  number "groupingIdentifier" m = [i] /\
  forall mx, number "maxNodesSupported" m = [mx] -> dget Z.eqb i (p_groups s) = Some (mkG mx (match getattr m "nodes" with VNodes l => l | _ => [] end)).
Proof. exact AssocLife.group_prompt. Qed.
Print Assumptions C112_prompt_partial.
Definition x_two : list pevent := [PCall PAssoc] ++ reply 0 [133; 6; 2] ++ reply 1 [133; 3; 1; 10; 0; 1; 7] ++ reply 2 [133; 3; 2; 5; 0].
Example C112_partial_ex : exists s tr, pexec (pstate0 old_node [] []) x_two s tr /\ from_wire tr /\ answers count_question tr = [heard [133; 6; 2]] /\
  answers (group_question old_node 1) tr = [heard [133; 3; 1; 10; 0; 1; 7]] /\ p_groups s = [(1, mkG 10 [(1, None); (7, None)]); (2, mkG 5 [])] /\
  In (0, POCall 0 PAssoc) tr /\ In (0, PODone 0 (Ok tt)) tr.
Proof. start X. split; [wire X|]. do 3 (split; [vm_compute; reflexivity|]). split; vm_compute; tauto. Qed.
(** the second answer of a node that has other members now *)
Definition x_again : list pevent := x_two ++ [PCall PAssoc] ++ reply 3 [133; 6; 2] ++ reply 4 [133; 3; 1; 10; 0; 9].
Example C112_again_ex : exists s tr, pexec (pstate0 old_node [] []) x_again s tr /\ from_wire tr /\ List.length (answers (group_question old_node 1) tr) = 2%nat /\ dget Z.eqb 1 (p_groups s) = Some (mkG 10 [(9, None)]).
Proof. start X. split; [wire X|]. split; vm_compute; reflexivity. Qed.
Definition x_count : list pevent := [PCall PAssoc] ++ [PNet (NEvSent 0 (Ok true)); PNet (NEvAdvance 3000); PNet (NEvTimer 0); PNet (NEvResume 0); PNet (NEvResume 0)].
Example C112_cause_partial_ex : exists s tr, pexec (pstate0 old_node [] []) x_count s tr /\ from_wire tr /\ In (0, POCall 0 PAssoc) tr /\ In (3000, PODone 0 (Err ETimeout)) tr.
Proof. start X. split; [wire X|]. split; vm_compute; tauto. Qed.
Definition x_one : list pevent := [PCall PAssoc] ++ reply 0 [133; 6; 1] ++ reply 1 [133; 3; 1; 10; 0; 1; 7].
Ltac nothing := let J := fresh in intros ? ? ? ? ? J; cbn [In] in J; repeat (destruct J as [J|J]; [try discriminate J; try (injection J as <- <- <- <-; vm_compute; reflexivity)|]); destruct J.
Example C112_prompt_partial_ex : exists s tr, pexec (pstate0 old_node [] []) x_one s tr /\ from_wire tr /\ one_at_a_time (group_question old_node) tr /\
  prompt_node (group_question old_node) (group_report old_node) "groupingIdentifier" tr /\ answers (group_question old_node 1) tr = [] ++ [heard [133; 3; 1; 10; 0; 1; 7]].
Proof.
  start X. split; [wire X|]. split; [|split; [|vm_compute; reflexivity]].
  - intros a n t u q i b n' r c E A n2 t2 u2 q2 i2 J. splits E; injection E as <- <- <- <- E;
      try (exfalso; vm_compute in A; discriminate A); splits E; cbn [In] in J; repeat (destruct J as [J|J]; [discriminate J|]); destruct J.
  - intros a n m r b E H. exists 1. splits E; injection E as <- <- <- <-; try (exfalso; vm_compute in H; discriminate H). split; [|vm_compute; reflexivity].
    eexists [_; _; _; _; _; _], _, _, _, _, _. split; [cbn [app]; reflexivity|]. split; [vm_compute; reflexivity|nothing].
Qed.

(** ** C113 *)
(** a report about sensor 1 comes twice; the second is taken for the answer about sensor 2 *)
Definition as_listed (l : list Z) : list Z := l.
Definition x_scales : list pevent := [PCall (PSensor 5 as_listed)] ++ reply 0 [49; 2; 3] ++
  [PNet (NEvSent 1 (Ok true)); PNet (NEvMessage (heard [49; 6; 1; 3])); PNet (NEvResume 1); PNet (NEvSent 2 (Ok true)); PNet (NEvMessage (heard [49; 6; 1; 3])); PNet (NEvResume 2)].
Theorem C113_refuted : ~ forall c es s tr k v, pexec (pstate0 c [] []) es s tr -> from_wire tr -> dget Z.eqb k (p_types s) = Some v ->
  exists n m r, In (n, PONet (NRecv m r)) tr /\ hid m = scale_report /\ number "sensorType" m = [k] /\ number "scaleBitMask" m = [v].
Proof.
  intros H. assert (W : exists s tr, pexec (pstate0 old_node [] []) x_scales s tr /\ from_wire tr /\ dget Z.eqb 2 (p_types s) = Some 3).
  { start X. split; [wire X|]. vm_compute. reflexivity. }
  destruct W as (s & tr & X & W & D). destruct (H _ _ _ _ _ _ X W D) as (n & m & r & J & _ & K & _). apply (AssocLife.recv_event _ _ _ _ _ _ _ X) in J.
  unfold x_scales in J. messages J; vm_compute in K; discriminate K.
Qed.
Print Assumptions C113_refuted.
(** The scales recorded for a sensor are those of the last answer to a question for it, or what was recorded before; the answers came after the questions were
    acknowledged.  Missing: that the answer is about the sensor, which is not checked. *)
Theorem C113_partial : forall c gs ts es s tr k, pexec (pstate0 c gs ts) es s tr -> from_wire tr -> byte k ->
  dget Z.eqb k (p_types s) = known_scales ts k tr /\ (forall m, In m (answers (scale_question k) tr) -> fresh_answer (scale_question k) scale_report m tr).
Proof.
  intros c gs ts es s tr k X W B. split; [exact (proj2 (AssocData.tables_exec _ _ _ _ _ _ X W) k B)|]. intros m. exact (AssocFresh.scale_fresh _ _ _ _ _ _ _ _ X B).
Qed.
Print Assumptions C113_partial.
(** An interview that returns has asked nothing if the version is below 5; otherwise for the sensors, and for each the node listed, in the set's order, for its
    scales, and each question was answered. *)
Theorem C113_asked_partial : forall c gs ts es s tr t n n' v od, pexec (pstate0 c gs ts) es s tr -> from_wire tr -> In (n, POCall t (PSensor v od)) tr -> In (n', PODone t (Ok tt)) tr ->
  (v < 5 /\ questions t tr = []) \/
  (5 <= v /\ exists m l, got_back t sensor_question (RMsg m) tr /\ getattr m "bitMask" = VSensors l /\ asks_scales (questions t tr) (od l) /\
     forall k, In k (od l) -> byte k -> exists m' z, got_back t (scale_question k) (RMsg m') tr /\ number "scaleBitMask" m' = [z]).
Proof. exact AssocLife.scales_asked. Qed.
Print Assumptions C113_asked_partial.
(** it raises only what a request raised, or a type error after a cut report *)
Theorem C113_cause_partial : forall c gs ts es s tr t n n' v od e, pexec (pstate0 c gs ts) es s tr -> from_wire tr -> In (n, POCall t (PSensor v od)) tr -> In (n', PODone t (Err e)) tr -> 5 <= v /\ sensor_cause t e tr.
Proof. exact AssocLife.scales_failed. Qed.
Print Assumptions C113_cause_partial.
(** with one question for scales at a time and a node that only reports the sensor asked about last, scales are not mixed up *)
Theorem C113_prompt_partial : forall c gs ts es s tr k m, pexec (pstate0 c gs ts) es s tr -> byte k -> one_at_a_time scale_question tr -> prompt_node scale_question scale_report "sensorType" tr ->
  In m (answers (scale_question k) tr) -> number "sensorType" m = [k].
Proof. exact AssocLife.scale_prompt. Qed.
Print Assumptions C113_prompt_partial.
Definition x_sensors : list pevent := [PCall (PSensor 5 as_listed)] ++ reply 0 [49; 2; 3] ++ reply 1 [49; 6; 1; 3] ++ reply 2 [49; 6; 2; 1].
Example C113_partial_ex : exists s tr, pexec (pstate0 old_node [] []) x_sensors s tr /\ from_wire tr /\ In (0, POCall 0 (PSensor 5 as_listed)) tr /\ In (0, PODone 0 (Ok tt)) tr /\
  answers (scale_question 2) tr = [heard [49; 6; 2; 1]] /\ p_types s = [(1, 3); (2, 1)].
Proof. start X. split; [wire X|]. do 2 (split; [vm_compute; tauto|]). split; vm_compute; reflexivity. Qed.
Definition x_short : list pevent := [PCall (PSensor 5 as_listed)] ++ reply 0 [49; 2; 1] ++ reply 1 [49; 6; 1].
Example C113_cause_partial_ex : exists s tr, pexec (pstate0 old_node [] []) x_short s tr /\ from_wire tr /\ In (0, POCall 0 (PSensor 5 as_listed)) tr /\ In (0, PODone 0 (Err EType)) tr.
Proof. start X. split; [wire X|]. split; vm_compute; tauto. Qed.
Definition x_sensor : list pevent := [PCall (PSensor 5 as_listed)] ++ reply 0 [49; 2; 1] ++ reply 1 [49; 6; 1; 3].
Example C113_prompt_partial_ex : exists s tr, pexec (pstate0 old_node [] []) x_sensor s tr /\ from_wire tr /\ one_at_a_time scale_question tr /\ prompt_node scale_question scale_report "sensorType" tr /\
  answers (scale_question 1) tr = [heard [49; 6; 1; 3]].
Proof.
  start X. split; [wire X|]. split; [|split; [|vm_compute; reflexivity]].
  - intros a n t u q i b n' r c E A n2 t2 u2 q2 i2 J. splits E; injection E as <- <- <- <- E;
      try (exfalso; vm_compute in A; discriminate A); splits E; cbn [In] in J; repeat (destruct J as [J|J]; [discriminate J|]); destruct J.
  - intros a n m r b E H. exists 1. splits E; injection E as <- <- <- <-; try (exfalso; vm_compute in H; discriminate H). split; [|vm_compute; reflexivity].
    eexists [_; _; _; _; _; _], _, _, _, _, _. split; [cbn [app]; reflexivity|]. split; [vm_compute; reflexivity|nothing].
Qed.

(** ** C114 *)
(** the command is not acknowledged and the node still does not list the controller; the interview returns *)
Definition x_lost : list pevent := [PCall PAssoc] ++ reply 0 [133; 6; 1] ++ reply 1 [133; 3; 1; 10; 0] ++ [PSent 0 (Ok false)] ++ reply 2 [133; 3; 1; 10; 0].
Theorem C114_refuted : ~ forall c es s tr t n, pexec (pstate0 c [] []) es s tr -> from_wire tr -> assoc_calls tr = [t] -> In (n, PODone t (Ok tt)) tr -> ~ needed c (p_groups s).
Proof.
  intros H. assert (W : exists s tr, pexec (pstate0 plus_node [] []) x_lost s tr /\ from_wire tr /\ assoc_calls tr = [0%nat] /\ In (0, PODone 0 (Ok tt)) tr /\ dget Z.eqb 1 (p_groups s) = Some (mkG 10 [])).
  { start X. split; [wire X|]. split; [vm_compute; reflexivity|]. split; [vm_compute; tauto|]. vm_compute. reflexivity. }
  destruct W as (s & tr & X & W & C & D & G). apply (H _ _ _ _ _ _ X W C D). split; [reflexivity|]. exists (mkG 10 []). split; [exact G|]. intros [[]|[]].
Qed.
Print Assumptions C114_refuted.
(** The lifeline command is sent only when the controller is missing, and it is the right command.  Missing: that a node that does not take it is noticed. *)
Theorem C114_partial : forall c gs ts es s tr e s' os t q, pexec (pstate0 c gs ts) es s tr -> pstep s e = Some (s', os) -> In (POSend t q) os -> needed c (p_groups s') /\ says q (lifeline_command c) = true.
Proof. exact AssocLife.life_step. Qed.
Print Assumptions C114_partial.
(** an interview that returns without having sent it found the controller in the group, or no such group, or a node without a lifeline *)
Theorem C114_done_partial : forall c gs ts es s tr e s' os t n0, pexec (pstate0 c gs ts) es s tr -> pstep s e = Some (s', os) -> from_wire (tr ++ pstamp (n_now (p_net s)) os) -> In (n0, POCall t PAssoc) tr ->
  In (PODone t (Ok tt)) os -> sends t tr = [] -> ~ needed c (p_groups s').
Proof. exact AssocLife.life_done. Qed.
Print Assumptions C114_done_partial.
(** an interview that sent it and returned has asked for the group after that, and was answered *)
Theorem C114_back_partial : forall c gs ts es s tr t n, pexec (pstate0 c gs ts) es s tr -> from_wire tr -> In (n, PODone t (Ok tt)) tr -> sends t tr <> [] -> exists m, back c t m tr.
Proof. exact AssocLife.read_back. Qed.
Print Assumptions C114_back_partial.
Definition x_missing : list pevent := [PCall PAssoc] ++ reply 0 [133; 6; 1] ++ [PNet (NEvSent 1 (Ok true)); PNet (NEvMessage (heard [133; 3; 1; 10; 0; 7]))].
Example C114_partial_ex : exists s tr, pexec (pstate0 plus_node [] []) x_missing s tr /\ exists s' os q, pstep s (PNet (NEvResume 1)) = Some (s', os) /\ In (POSend 0 q) os.
Proof. start X. eexists _, _, _. split; [vm_compute; reflexivity|]. right. left. reflexivity. Qed.
Definition x_there : list pevent := [PCall PAssoc] ++ reply 0 [133; 6; 1] ++ [PNet (NEvSent 1 (Ok true)); PNet (NEvMessage (heard [133; 3; 1; 10; 0; 1]))].
Example C114_done_partial_ex : exists s tr, pexec (pstate0 plus_node [] []) x_there s tr /\ from_wire tr /\ In (0, POCall 0 PAssoc) tr /\ sends 0 tr = [] /\
  exists s' os, pstep s (PNet (NEvResume 1)) = Some (s', os) /\ In (PODone 0 (Ok tt)) os.
Proof. start X. split; [wire X|]. split; [vm_compute; tauto|]. split; [vm_compute; reflexivity|]. eexists _, _. split; [vm_compute; reflexivity|]. right. left. reflexivity. Qed.
Definition x_set : list pevent := x_missing ++ [PNet (NEvResume 1); PSent 0 (Ok true)] ++ reply 2 [133; 3; 1; 10; 0; 7; 1].
Example C114_back_partial_ex : exists s tr, pexec (pstate0 plus_node [] []) x_set s tr /\ from_wire tr /\ In (0, PODone 0 (Ok tt)) tr /\ sends 0 tr <> [] /\
  dget Z.eqb 1 (p_groups s) = Some (mkG 10 [(7, None); (1, None)]).
Proof. start X. split; [wire X|]. split; [vm_compute; tauto|]. split; [vm_compute; discriminate|]. vm_compute. reflexivity. Qed.
