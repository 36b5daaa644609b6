(** C124: the handling of mailbox messages ends. *)
From Coq Require Import String ZArith List Bool Lia.
From Verif Require Import Py Schema Registry Codec MailboxM SpecMailbox SpecMailboxTo SpecMailboxEnd.
From Verif Require MailboxProofs MailboxMore MailboxEnd.
Import ListNotations.
Open Scope list_scope.
Open Scope string_scope.
Open Scope list_scope.
Open Scope Z_scope.

Local Ltac ran := eexists _, _; split; [apply MailboxMore.mrun_exec; vm_compute; reflexivity|].
(** an acknowledgement without a queue handle, before any wake-up: uint8_t(None) raises TypeError *)
Theorem C124_refuted : exists m es s tr, decode [105; 4; 4; 0] = Ok m /\ es = [EvMessage 5 m] /\ mexec mbox0 es s tr /\ results 0 tr = [Err EType] /\ ~ no_fault es tr.
Proof.
  eexists _, _. eexists _, _. split; [vm_compute; reflexivity|]. split; [reflexivity|]. split; [apply MailboxMore.mrun_exec; vm_compute; reflexivity|]. split; [reflexivity|].
  intros N. specialize (N O EType (or_introl eq_refl)). destruct N as [N|[]]. discriminate N.
Qed.
Print Assumptions C124_refuted.
(** a handler calls sendToNode at most once, for the sender of its message, and ends at most once *)
Theorem C124_once_partial es s tr t node m : mexec mbox0 es s tr -> nth_error (inputs tr) t = Some (node, m) ->
  (sent_by t tr = [] \/ exists m', sent_by t tr = [(node, m')]) /\ (results t tr = [] \/ exists r, results t tr = [r]).
Proof. exact (MailboxEnd.once es s tr t node m). Qed.
Print Assumptions C124_once_partial.
(** a handler that has not ended has called sendToNode, and ends as soon as this call ends, however it does *)
Theorem C124_ends_partial es s tr t node m : mexec mbox0 es s tr -> nth_error (inputs tr) t = Some (node, m) -> results t tr = [] ->
  (exists m', sent_by t tr = [(node, m')]) /\ forall r, exists s' os r', mstep s (EvSent t r) = Some (s', os ++ [MRet t r']).
Proof. exact (MailboxEnd.ends es s tr t node m). Qed.
Print Assumptions C124_ends_partial.
(** exceptions come from the adapter, or the message is about no queue *)
Theorem C124_partial es s tr n t e : mexec mbox0 es s tr -> In (n, MRet t (Err e)) tr -> In (EvSent t (Err e)) es \/ e = EType /\ exists a m, given t tr a m /\ asks m /\ about a m = None.
Proof. exact (MailboxEnd.faults es s tr n t e). Qed.
Print Assumptions C124_partial.
(** what asks for nothing is ignored *)
Theorem C124_ignored_partial s node m : ~ asks m -> exists s', mstep s (EvMessage node m) = Some (s', [MIn node m; MRet (length (m_tasks s)) (Ok false)]).
Proof. exact (MailboxEnd.ignored s node m). Qed.
Print Assumptions C124_ignored_partial.

(** a push that is stored, one that cannot be announced, a wake-up that is being answered *)
Example C124_case : exists s tr, mexec mbox0 [EvMessage 5 (push_msg 1 [32; 1; 255]); EvMessage 6 (push_msg 2 [32; 1; 0]); EvSent 1 (Err ETimeout); EvSent 0 (Ok true); EvMessage 5 (wake_msg 1)] s tr /\
  results 0 tr = [Ok true] /\ results 1 tr = [Err ETimeout] /\ results 2 tr = [] /\ option_map fst (nth_error (inputs tr) 2) = Some 5 /\ length (sent_by 2 tr) = 1%nat.
Proof. ran. repeat split; vm_compute; reflexivity. Qed.
Example C124_case_ignored : exists m, decode [105; 4; 3; 1] = Ok m /\ ~ asks m.
Proof. eexists. split; [vm_compute; reflexivity|]. intros [H|[_ [H|H]]]; vm_compute in H; discriminate H. Qed.
