(** C125: repeated packets on the unsolicited socket. *)
From Coq Require Import String ZArith List Bool.
From Verif Require Import Py Schema Registry Codec Waiter Conn SpecConn Gateway SpecGateway SpecRepeat PropertiesGateway.
From Verif Require Repeat GatewayNm.
Import ListNotations.
Open Scope list_scope.
Open Scope string_scope.
Open Scope list_scope.
Open Scope Z_scope.

(** Basic.Set 255 from node 1, asking for an acknowledgement, sequence number 9 *)
Definition x_set : list Z := [35; 2; 128; 80; 9; 3; 4; 32; 1; 255].
Definition x_twice : list gevent := x_known ++ [GUnsol x_set (Some (x_addr 1)); GAdvance 500; GUnsol x_set (Some (x_addr 1))].
(** the same packet half a second later is acted on again *)
Theorem C125_refuted : exists es s tr, gexec x_ord gw0 es s tr /\ ~ repeats_ignored tr.
Proof.
  exists x_twice, (x_state x_twice), (x_trace x_twice). split; [apply GatewayNm.grun_exec; vm_compute; reflexivity|]. intros R.
  refine (R (firstn (length (x_trace x_known)) (x_trace x_twice)) 0 x_set (x_addr 1) (firstn 2 (skipn (S (length (x_trace x_known))) (x_trace x_twice))) 500 (skipn (length (x_trace x_known) + 4) (x_trace x_twice)) _ _ _ _).
  - vm_compute. reflexivity.
  - vm_compute. discriminate.
  - vm_compute. do 6 eexists. right. do 2 eexists. reflexivity.
  - vm_compute. do 6 eexists. right. do 2 eexists. reflexivity.
Qed.
Print Assumptions C125_refuted.
(** a command handed on has a packet of its own, received in the same moment with nothing but its acknowledgement in between, from an address listed at that time: a command is handed on at most as often as it is received *)
Theorem C125_partial ord es s tr x k n ep cmd fl y : gexec ord gw0 es s tr -> tr = x ++ (k, GTold None n ep cmd fl) :: y ->
  exists x0 bs a m r, x = x0 ++ (k, GPacket bs (Some a)) :: r /\ (r = [] \/ exists rs, r = [(k, GReply rs a)]) /\ decode bs = Ok m /\ ep = getattr m "sourceEP" /\ cmd = getattr m "command" /\ fl = getattr m "headerExtension" /\
    exists es0 s0, gexec ord gw0 es0 s0 x0 /\ listed s0 n a.
Proof. exact (Repeat.own_packet ord es s tr x k n ep cmd fl y). Qed.
Print Assumptions C125_partial.
Example C125_case : exists x y n ep cmd fl, gexec x_ord gw0 x_twice (x_state x_twice) (x_trace x_twice) /\ x_trace x_twice = x ++ (500, GTold None n ep cmd fl) :: y /\ n = 1 /\ length x = (length (x_trace x_known) + 5)%nat.
Proof.
  exists (firstn (length (x_trace x_known) + 5) (x_trace x_twice)), []. do 4 eexists. split; [apply GatewayNm.grun_exec; vm_compute; reflexivity|]. split; [vm_compute; reflexivity|]. split; vm_compute; reflexivity.
Qed.
