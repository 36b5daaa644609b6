(** C120: a configuration read returns the value the node reported for that parameter. *)
From Coq Require Import String ZArith List Bool.
From Verif Require Import Py Schema Registry Codec NodeReq CmdClass SpecClass ConfigRunM SpecConfigRun ConfigRun.
Import ListNotations.
Open Scope list_scope.
Open Scope string_scope.
Open Scope list_scope.
Open Scope Z_scope.

(** Two reads overlap; the node answers both, and only what it was asked for. *)
Theorem C120_refuted : exists es s tr, cexec (crun0 []) es s tr /\ whole tr /\ answers_only tr /\ ~ true_reads tr.
Proof. exists ev_overlap, (state_of ev_overlap), (trace_of ev_overlap). exact (conj (runs ev_overlap ltac:(vm_compute; discriminate)) (conj overlap_whole (conj overlap_answers overlap_false))). Qed.
(** One read at a time; the answer to a read that was given up comes during the next one. *)
Theorem C120_late_refuted : exists es s tr, cexec (crun0 []) es s tr /\ whole tr /\ answers_only tr /\ one_read tr /\ ~ true_reads tr.
Proof. exists ev_late, (state_of ev_late), (trace_of ev_late). exact (conj (runs ev_late ltac:(vm_compute; discriminate)) (conj late_whole (conj late_answers (conj late_one late_false)))). Qed.
(** A single read; the node reports another parameter of its own accord. *)
Theorem C120_other_refuted : exists es s tr, cexec (crun0 []) es s tr /\ whole tr /\ (exists n t k c, forall n' t' k' c', In (n', COCall t' k' c') tr <-> (n', t', k', c') = (n, t, k, c)) /\ ~ true_reads tr.
Proof.
  exists ev_other, (state_of ev_other), (trace_of ev_other). refine (conj (runs ev_other ltac:(vm_compute; discriminate)) (conj other_whole (conj _ other_false))).
  exists 0, 0%nat, 1, false. intros n t k c. vm_compute. split; [intros H; repeat (destruct H as [H|H]; [try discriminate H; injection H as <- <- <- <-; reflexivity|]); destruct H|]. intros H. injection H as -> -> -> ->. tauto.
Qed.
(** A read with [cached] returns the value reported last, if there is one; any other asks the node for its parameter. *)
Theorem C120_cached_partial : forall ps es s tr a n t k c b, cexec (crun0 ps) es s tr -> whole tr -> tr = a ++ (n, COCall t k c) :: b ->
  match (if c then latest ps k a else None) with
  | Some v => exists b', b = (n, CODone t (Ok (VInt v))) :: b'
  | None => exists u q b', b = (n, COAsk t u q) :: b' /\ (0 <= k < 256 -> asks_for k q)
  end.
Proof. exact calls_exec. Qed.
(** What a read that asked the node returns is the value of a report that came after the question had been acknowledged. *)
Theorem C120_fresh_partial : forall ps es s tr a n t u q b n' v c, cexec (crun0 ps) es s tr -> tr = a ++ (n, COAsk t u q) :: b ++ (n', CODone t (Ok v)) :: c ->
  exists m n1 n2 b1 b2 b3, b = b1 ++ (n1, CONet (NSent u (Ok true))) :: b2 ++ (n2, CONet (NRecv m (Ok true))) :: b3 /\ hid m = config_report /\ v = getattr m "value".
Proof. exact values_exec. Qed.
(** If no other parameter is reported meanwhile, it is a value of this parameter. *)
Theorem C120_partial : forall ps es s tr a n t u q b n' v c k, cexec (crun0 ps) es s tr -> tr = a ++ (n, COAsk t u q) :: b ++ (n', CODone t (Ok v)) :: c ->
  (forall m, received m b -> exists v sz, reports_parameter m k v sz) -> exists m w sz, received m b /\ reports_parameter m k w sz /\ v = VInt w.
Proof. exact value_named. Qed.
Print Assumptions C120_refuted.
Print Assumptions C120_late_refuted.
Print Assumptions C120_other_refuted.
Print Assumptions C120_cached_partial.
Print Assumptions C120_fresh_partial.
Print Assumptions C120_partial.

(** A read of parameter 1, its report, a further report, then a read of what is kept and one of parameter 3. *)
Definition ev_good : list cevent := [CGet 1 true; CNet (NEvSent 0 (Ok true)); CNet (NEvAdvance 20); CNet (NEvMessage (rep 1 7)); CNet (NEvResume 0); CNet (NEvMessage (rep 1 8)); CGet 1 true; CGet 3 true].
Example C120_case : exists s tr a b c u q, cexec (crun0 []) ev_good s tr /\ whole tr /\ tr = a ++ (0, COAsk 0 u q) :: b ++ (20, CODone 0 (Ok (VInt 7))) :: c /\ asks_for 1 q /\ (exists m, received m b) /\ (forall m, received m b -> exists v sz, reports_parameter m 1 v sz)
  /\ (exists n, In (n, CODone 1 (Ok (VInt 8))) tr) /\ (exists n u' q', In (n, COAsk 2 u' q') tr /\ asks_for 3 q').
Proof.
  exists (state_of ev_good), (trace_of ev_good), (firstn 1 (trace_of ev_good)), (firstn 4 (skipn 2 (trace_of ev_good))), (skipn 7 (trace_of ev_good)), 0%nat, (getq 1).
  split; [apply runs; vm_compute; discriminate|]. split; [whole_tac|]. split; [vm_compute; reflexivity|]. split; [vm_compute; reflexivity|].
  split; [exists (rep 1 7); split; [vm_compute; reflexivity|]; exists 20; vm_compute; tauto|].
  split; [intros m [_ [n J]]; vm_compute in J; repeat (destruct J as [J|J]; [try discriminate J|]); try (destruct J; fail); injection J as _ <-; exists 7, 1; eexists; split; [reflexivity|]; vm_compute; eauto 8|].
  split; [exists 20; vm_compute; tauto|]. exists 20, 1%nat, (getq 3). split; vm_compute; tauto.
Qed.
(** A stored parameter is used as long as nothing is reported. *)
Example C120_stored : exists s tr, cexec (crun0 [(5, (66, 1))]) [CGet 5 true] s tr /\ whole tr /\ tr = [] ++ (0, COCall 0 5 true) :: [(0, CODone 0 (Ok (VInt 66)))] /\ latest [(5, (66, 1))] 5 [] = Some 66.
Proof.
  eexists _, _. split; [apply crun_exec; vm_compute; reflexivity|]. split; [intros n m r J; vm_compute in J; repeat (destruct J as [J|J]; [discriminate J|]); destruct J|]. split; reflexivity.
Qed.
