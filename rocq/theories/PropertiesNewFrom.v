(** C127: commands go to the address that the node has. *)
From Coq Require Import String ZArith List Bool.
From Verif Require Import Py Schema Registry Codec Waiter Conn SpecConn Gateway SpecGateway SpecTableFrom PropertiesGateway PropertiesTableFrom.
From Verif Require NewFrom GatewayNm.
Import ListNotations.
Open Scope list_scope.
Open Scope string_scope.
Open Scope list_scope.
Open Scope Z_scope.

(** node 5 is sent a command, leaves the network, and joins it again with another address *)
Definition x_moved : list gevent := x_two ++ [x_send 5; x_adv 5; x_resume 5; GEnv 1 (Ok tt); x_report 1; x_report 17;
  GConn None (EvPacket [88; 1; 0; 5; 253; 0; 0; 0; 0; 0; 0; 0; 0; 0; 0; 0; 0; 0; 0; 99; 1; 2; 3; 4]); x_resume 6].
(** the next command goes to the old address *)
Theorem C127_refuted : exists es s tr s' os k t l t' u c a b, gexec x_ord gw0 es s tr /\ known s 5 = Some (VIPv6 b) /\ In (k, GNew t l 5 a) tr /\ a <> b /\
  gstep x_ord s (x_send 5) = Some (s', os) /\ In (GSub t' (Some l) u c) os.
Proof.
  exists x_moved, (x_state x_moved), (x_trace x_moved). eexists _, _. exists 0, 1%nat, 0%nat, 4%nat. eexists _, _. exists (x_addr 5), (x_addr 99).
  split; [apply GatewayNm.grun_exec; vm_compute; reflexivity|]. split; [vm_compute; reflexivity|]. split; [vm_compute; repeat first [left; reflexivity|right]|]. split; [vm_compute; discriminate|].
  split; [vm_compute; reflexivity|]. right. left. reflexivity.
Qed.
Print Assumptions C127_refuted.
(** a command goes over a connection to an address that had just been found for its node when the connection was made *)
Theorem C127_found_partial ord es s tr k t l u c : gexec ord gw0 es s tr -> In (k, GSub t (Some l) u c) tr ->
  exists k' n cmd sep dep tmo k0 t0 a x y, In (k', GCalled t (GSendTo n cmd sep dep tmo)) tr /\ c = CSend cmd sep dep tmo /\ tr = x ++ (k0, GFound t0 n (VIPv6 a)) :: (k0, GNew t0 l n a) :: y.
Proof. exact (NewFrom.goes_to ord es s tr k t l u c). Qed.
Print Assumptions C127_found_partial.
(** while look ups for a node find the same address, connections to it are made to that address, which is the one in the table *)
Theorem C127_partial ord es s tr n a : iterates ord -> gexec ord gw0 es s tr -> (forall v, looked_up tr n v -> v = VIPv6 a) ->
  (forall k t l b, In (k, GNew t l n b) tr -> b = a) /\ (forall v, known s n = Some v -> v = VNone \/ v = VIPv6 a).
Proof. exact (NewFrom.steady ord es s tr n a). Qed.
Print Assumptions C127_partial.
Definition x_stay : list gevent := x_two ++ [x_send 5; x_adv 5; x_resume 5; GEnv 1 (Ok tt)].
Example C127_case : exists s tr u c, iterates x_ord /\ gexec x_ord gw0 x_stay s tr /\ In (0, GSub 1 (Some 0%nat) u c) tr /\ In (0, GNew 1 0 5 (x_addr 5)) tr /\ forall v, looked_up tr 5 v -> v = VIPv6 (x_addr 5).
Proof.
  exists (x_state x_stay), (x_trace x_stay), 0%nat, (CSend (VObj (CMsg m_ZwavePlusInfo_Get) []) 0 0 3000). split; [exact x_iterates|]. split; [apply GatewayNm.grun_exec; vm_compute; reflexivity|]. split; [vm_compute; repeat first [left; reflexivity|right]|]. split; [vm_compute; repeat first [left; reflexivity|right]|].
  intros v (k & t & J). assert (Q : forall tr, forallb (fun x => match snd x with GFound _ 5 (VIPv6 a) => a =? x_addr 5 | GFound _ 5 _ => false | _ => true end) tr = true -> In (k, GFound t 5 v) tr -> v = VIPv6 (x_addr 5)).
  { intros tr H J'. rewrite forallb_forall in H. specialize (H _ J'). cbn in H. destruct v; try discriminate H. apply Z.eqb_eq in H. rewrite H. reflexivity. }
  apply (Q (x_trace x_stay)); [vm_compute; reflexivity|exact J].
Qed.
