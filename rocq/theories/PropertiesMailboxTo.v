(** C122: stored mailbox messages are delivered to the node that pushed them. *)
From Coq Require Import String ZArith List Bool Lia.
From Verif Require Import Py Schema Registry Codec MailboxM SpecMailbox SpecMailboxTo.
From Verif Require MailboxProofs MailboxMore MailboxTo.
Import ListNotations.
Open Scope list_scope.
Open Scope string_scope.
Open Scope list_scope.
Open Scope Z_scope.

Definition ack_msg (h : Z) : val := VObj (CMsg m_Mailbox_Queue) [("operation", VU 3 4); ("queueHandle", VI false 1 h)].
Local Ltac ran := eexists _, _; split; [apply MailboxMore.mrun_exec; vm_compute; reflexivity|].
(** the last entry is a delivery to a node that did not push *)
Local Ltac stray := let R := fresh in intros R; match type of R with returned ?l => let a := eval cbv [removelast] in (removelast l) in
  let J := fresh in let P := fresh in let PD := fresh in edestruct (R a) as (? & ? & J & P); [reflexivity|reflexivity|]; cbn [In] in J;
  repeat (destruct J as [J|J]; [first [discriminate J | injection J as <- <-; destruct P as (? & P & PD); first [discriminate P | cbn in P; injection P as <-; discriminate PD]]|]); exact J end.

(** node 5 pushed the message; node 6 uses the same handle and gets it *)
Definition two_nodes : list mevent := push_all 5 1 0 [[32; 1; 255]] ++ [EvMessage 6 (wake_msg 1)].
Theorem C122_refuted : exists s tr, mexec mbox0 two_nodes s tr /\ ~ returned tr.
Proof.
  ran. stray.
Qed.
Print Assumptions C122_refuted.
(** no handle is used by two nodes; node 5 acknowledges a message without naming its queue after node 6 woke up, and gets a message of node 6 *)
Definition late_ack : list mevent := push_all 6 2 0 [[32; 1; 255]; [32; 1; 0]] ++ push_all 5 1 2 [[37; 1; 0]] ++ [EvMessage 5 (wake_msg 1); EvSent 3 (Ok true); EvMessage 6 (wake_msg 2); EvMessage 5 (ack_msg 0)].
Definition owner (h : Z) : Z := if h =? 1 then 5 else 6.
Theorem C122_ack_refuted : exists s tr, mexec mbox0 late_ack s tr /\ owned owner tr /\ ~ returned tr.
Proof.
  ran. split.
  - intros n node m J _ h H H0. cbn [In] in J. repeat (destruct J as [J|J]; [first [discriminate J | injection J as _ <- <-; cbn in H; injection H as <-; first [reflexivity | destruct (H0 eq_refl)]]|]). destruct J.
  - stray.
Qed.
Print Assumptions C122_ack_refuted.
(** a delivery always goes to the node that asked for it, from the queue it asked for *)
Theorem C122_asked_partial es s tr a n w node m b h d : mexec mbox0 es s tr -> tr = a ++ (n, MSend w node m) :: b -> delivers m h d ->
  exists a0 m0, a = a0 ++ [(n, MIn node m0)] /\ about a0 m0 = Some h.
Proof. intros X E D. exact (proj1 (MailboxTo.to_sender es s tr a n w node m b h d X E D)). Qed.
Print Assumptions C122_asked_partial.
(** and was pushed to that queue before, by some node *)
Theorem C122_pushed_partial es s tr a n w node m b h d : mexec mbox0 es s tr -> tr = a ++ (n, MSend w node m) :: b -> delivers m h d ->
  exists n' node' m', In (n', MIn node' m') a /\ pushes m' h d.
Proof. exact (MailboxTo.pushed_before es s tr a n w node m b h d). Qed.
Print Assumptions C122_pushed_partial.
(** if all messages about a queue come from one node, then what it pushed is delivered to it *)
Theorem C122_partial own es s tr : mexec mbox0 es s tr -> polite own tr -> returned tr.
Proof. exact (MailboxTo.returns own es s tr). Qed.
Print Assumptions C122_partial.

(** two nodes with a queue each, both asked for; an acknowledgement that names no queue *)
Definition two_queues : list mevent := push_all 6 2 0 [[32; 1; 255]] ++ push_all 5 1 1 [[37; 1; 0]; [37; 1; 255]] ++ [EvMessage 6 (wake_msg 2); EvSent 3 (Ok true); EvMessage 5 (wake_msg 1); EvSent 4 (Ok true); EvMessage 5 (ack_msg 0)].
Example C122_example : exists s tr, mexec mbox0 two_queues s tr /\ polite owner tr /\ delivered 2 tr = [[32; 1; 255]] /\ delivered 1 tr = [[37; 1; 255]; [37; 1; 0]].
Proof.
  ran. split; [|split; reflexivity]. intros a n node m b h E A.
  repeat (destruct a as [|? a]; [injection E; clear E; intros; try discriminate; subst; cbn in A; injection A as <-; reflexivity|injection E as <- E]). destruct a; discriminate E.
Qed.
