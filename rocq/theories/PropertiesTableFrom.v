(** C126: the gateway's node table holds what the gateway reported. *)
From Coq Require Import String ZArith List Bool.
From Verif Require Import Py Schema Registry Codec Waiter Conn SpecConn Gateway SpecGateway SpecTableFrom PropertiesGateway.
From Verif Require TableFrom GatewayNm.
Import ListNotations.
Open Scope list_scope.
Open Scope string_scope.
Open Scope list_scope.
Open Scope Z_scope.

Lemma x_iterates : iterates x_ord. Proof. intros l x. reflexivity. Qed.
(** the gateway has answered connect() with nodes 1 and 5; a packet from any address whatever removes node 5 *)
Definition x_two : list gevent := x_ready 17 ++ [x_adv 1; x_resume 3; x_adv 5; x_resume 4].
Theorem C126_refuted : exists es s tr, gexec x_ord gw0 es s tr /\ tells (x_list 0 1) [1] /\ known s 5 = Some (VIPv6 (x_addr 5)) /\
  forall a, exists s' os, gstep x_ord s (GUnsol (x_list 0 1) (Some a)) = Some (s', os) /\ known s' 5 = None.
Proof.
  exists x_two, (x_state x_two), (x_trace x_two). split; [apply GatewayNm.grun_exec; vm_compute; reflexivity|]. split; [eexists; split; [vm_compute; reflexivity|]; split; [left; vm_compute; reflexivity|vm_compute; reflexivity]|].
  split; [vm_compute; reflexivity|]. intros a. eexists _, _. split; vm_compute; reflexivity.
Qed.
Print Assumptions C126_refuted.
(** a node whose address is being looked up is put into the table although a later report, the last one, no longer names it *)
Definition x_stale : list gevent := x_known ++ [x_report 17; x_report 1; x_adv 5; x_resume 4].
Theorem C126_stale_refuted : exists es s tr a k bs ad b, gexec x_ord gw0 es s tr /\ tr = a ++ (k, GPacket bs (Some ad)) :: b /\ tells bs [1] /\ known s 5 = Some (VIPv6 (x_addr 5)) /\
  (forall k' bs' ad', ~ In (k', GPacket bs' ad') b) /\ exists t, In (k, GRet t (Ok (GV VNone))) b.
Proof.
  exists x_stale, (x_state x_stale), (x_trace x_stale), (firstn (length (x_trace (x_known ++ [x_report 17]))) (x_trace x_stale)), 0, (x_list 0 1), 7, (skipn (S (length (x_trace (x_known ++ [x_report 17])))) (x_trace x_stale)).
  split; [apply GatewayNm.grun_exec; vm_compute; reflexivity|]. split; [vm_compute; reflexivity|]. split; [eexists; split; [vm_compute; reflexivity|]; split; [left; vm_compute; reflexivity|vm_compute; reflexivity]|].
  split; [vm_compute; reflexivity|]. split; [|exists 2%nat; vm_compute; repeat first [left; reflexivity|right]]. apply TableFrom.no_packet. vm_compute. reflexivity.
Qed.
Print Assumptions C126_stale_refuted.
(** each node in the table was named by a node list report that was received, and each address was the result of a look up for that node *)
Theorem C126_partial ord es s tr n v : iterates ord -> gexec ord gw0 es s tr -> known s n = Some v -> named tr n /\ (v = VNone \/ looked_up tr n v).
Proof. intros I. exact (TableFrom.table_from ord I es s tr n v). Qed.
Print Assumptions C126_partial.
Example C126_case : exists s tr, iterates x_ord /\ gexec x_ord gw0 x_two s tr /\ known s 1 = Some (VIPv6 (x_addr 1)) /\ known s 5 = Some (VIPv6 (x_addr 5)) /\ known s 2 = None.
Proof. eexists _, _. split; [exact x_iterates|]. split; [apply GatewayNm.grun_exec; vm_compute; reflexivity|]. repeat split; vm_compute; reflexivity. Qed.
