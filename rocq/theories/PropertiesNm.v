(** C80, C81, C91: what network management calls return.  Statements only; proofs are in GatewayAnswer.v.
    [ord] is the order in which python iterates over a set. *)
From Coq Require Import String ZArith List Bool Lia.
From Verif Require Import Py Schema Registry Codec Waiter Conn SpecConn Gateway SpecGateway SpecGatewayNm RemoveM.
From Verif Require GatewayNm GatewayAnswer.
Import ListNotations.
Open Scope list_scope.
Open Scope string_scope.
Open Scope list_scope.
Open Scope Z_scope.

Definition x_ord (l : list Z) : list Z := l.
Definition x_ack (q : Z) : gevent := GConn None (EvPacket [35; 2; 64; 0; q; 0; 0]).
Definition x_resume (u : nat) : gevent := GConn None (EvResume u).
(** the gateway never answers: removeNode's datagram is not acknowledged within 3 s *)
Definition x_unacked : list gevent := [GCall GConnect; GEnv 0 (Ok tt); GCall (GNm NmRemove); GAdvance 3000; GConn None (EvTimer 1); x_resume 1; x_resume 1].

(** ** C80 *)
Theorem C80_refuted : exists es s tr, gexec x_ord gw0 es s tr /\ In (0, GCalled 1 (GNm NmRemove)) tr /\ In (3000, GRet 1 (Ok (GV (VBool true)))) tr /\
  In (3000, GBack 1 (AwCall None 1) (Ok (GV (VBool false)))) tr /\ forall n bs, ~ In (n, ORecv bs) (on_link None tr).
Proof.
  exists x_unacked. eexists _, _. split; [apply GatewayNm.grun_exec; vm_compute; reflexivity|]. split; [vm_compute; tauto|]. split; [vm_compute; tauto|]. split; [vm_compute; tauto|].
  intros n bs J. vm_compute in J. repeat (destruct J as [J|J]; [discriminate|]). exact J.
Qed.
Print Assumptions C80_refuted.
(** False, the documented answer for a command that was not delivered, is never returned *)
Theorem C80_never_false_refuted ord es s tr t q n n' r : gexec ord gw0 es s tr -> In (n, GCalled t (GNm q)) tr -> In (n', GRet t r) tr -> nm_valid q -> nm_report q = None ->
  r = Ok (GV (VBool true)) \/ exists e, r = Err e.
Proof. exact (GatewayAnswer.command_result ord es s tr t q n n' r). Qed.
Print Assumptions C80_never_false_refuted.
(** a command that returns sent one datagram; if it returned within 3 s of sending it, the gateway has acknowledged it *)
Theorem C80_prompt_partial ord es s tr t q n n' r : gexec ord gw0 es s tr -> In (n, GCalled t (GNm q)) tr -> In (n', GRet t (Ok r)) tr -> nm_valid q -> nm_report q = None ->
  exists u c a n0 b n1 x rest, own t tr = [GCalled t (GNm q); GSub t None u c; GBack t (AwCall None u) (Ok (GV (VBool x))); GRet t (Ok (GV (VBool true)))] /\ nm_asks q c /\
    on_link None tr = a ++ (n0, OCall u c) :: b ++ (n1, ORet u (RBool x)) :: rest /\
    (n1 < n0 + 3000 -> x = true) /\ (x = true -> exists m bs, In (m, ORecv bs) b /\ acknowledges bs ((sends a + 1) mod 256)).
Proof. exact (GatewayAnswer.command_prompt ord es s tr t q n n' r). Qed.
Print Assumptions C80_prompt_partial.
Definition x_acked : list gevent := [GCall GConnect; GEnv 0 (Ok tt); GCall (GNm (NmAdd 32)); GAdvance 20; x_ack 2; x_resume 1].
Example C80_example : exists s tr, gexec x_ord gw0 x_acked s tr /\ In (0, GCalled 1 (GNm (NmAdd 32))) tr /\ In (20, GRet 1 (Ok (GV (VBool true)))) tr /\
  nm_valid (NmAdd 32) /\ nm_report (NmAdd 32) = None /\ In (0, OWire (Some 1%nat) [35; 2; 128; 80; 2; 0; 0; 52; 1; 1; 0; 7; 32]) (on_link None tr).
Proof.
  eexists _, _. split; [apply GatewayNm.grun_exec; vm_compute; reflexivity|]. split; [vm_compute; tauto|]. split; [vm_compute; tauto|]. split; [cbn; unfold byte; lia|]. split; [reflexivity|vm_compute; tauto].
Qed.

(** ** C81 *)
(** a report on a node: sequence number [k] of the request it answers, one command class [b] *)
Definition x_info (k b : Z) : gevent := GConn None (EvPacket [35; 2; 0; 64; 9; 0; 0; 82; 4; k; 0; 128; 0; 0; 4; 16; 1; b]).
Definition x_ready : list gevent := [GCall GConnect; GEnv 0 (Ok tt); x_ack 1; x_resume 0].
Definition seq_of (m : val) : option val := match m with VObj _ d => aget "seqNo" d | _ => None end.
(** the report on node 5 arrives when getNodeInfo(5) has given up and getNodeInfo(6) waits *)
Definition x_late : list gevent := x_ready ++ [GCall (GNm (NmInfo 5)); x_ack 2; x_resume 1; GAdvance 3000; GConn None (EvTimer 1); x_resume 1; x_resume 1;
  GCall (GNm (NmInfo 6)); x_info 1 37; x_ack 3; x_resume 2; x_resume 2].
Theorem C81_late_refuted : exists es s tr m, gexec x_ord gw0 es s tr /\ In (3000, GCalled 2 (GNm (NmInfo 6))) tr /\ In (3000, GRet 2 (Ok (GV m))) tr /\
  seq_of m = Some (VI false 1 1) /\
  In (0, OWire (Some 1%nat) [35; 2; 128; 80; 2; 0; 0; 82; 3; 1; 15; 5]) (on_link None tr) /\ In (3000, OWire (Some 2%nat) [35; 2; 128; 80; 3; 0; 0; 82; 3; 2; 15; 6]) (on_link None tr).
Proof.
  exists x_late. eexists _, _, _. split; [apply GatewayNm.grun_exec; vm_compute; reflexivity|]. split; [vm_compute; tauto|]. split; [vm_compute; do 40 (try (left; reflexivity); right)|]. 
  split; [vm_compute; reflexivity|]. split; vm_compute; tauto.
Qed.
Print Assumptions C81_late_refuted.
(** two queries at the same time return the same report *)
Definition x_shared : list gevent := x_ready ++ [GCall (GNm (NmInfo 5)); GCall (GNm (NmInfo 6)); x_ack 2; x_ack 3; x_resume 1; x_resume 2; x_info 1 37; x_resume 1; x_resume 2].
Theorem C81_shared_refuted : exists es s tr m, gexec x_ord gw0 es s tr /\ In (0, GCalled 1 (GNm (NmInfo 5))) tr /\ In (0, GCalled 2 (GNm (NmInfo 6))) tr /\
  In (0, GRet 1 (Ok (GV m))) tr /\ In (0, GRet 2 (Ok (GV m))) tr /\ seq_of m = Some (VI false 1 1).
Proof.
  exists x_shared. eexists _, _, _. split; [apply GatewayNm.grun_exec; vm_compute; reflexivity|]. split; [vm_compute; tauto|]. split; [vm_compute; tauto|].
  split; [vm_compute; do 40 (try (left; reflexivity); right)|]. split; [vm_compute; do 40 (try (left; reflexivity); right)|vm_compute; reflexivity].
Qed.
Print Assumptions C81_shared_refuted.
(** a query that returns made one request; it returns a report of the right kind received after the request was made (the first
    one, if nobody else waits for such reports at the time), or the default because none came in time *)
Theorem C81_partial ord es s tr t q n n' x h tmo : gexec ord gw0 es s tr -> In (n, GCalled t (GNm q)) tr -> In (n', GRet t (Ok x)) tr -> nm_valid q -> nm_report q = Some (h, tmo) ->
  exists u c a n0 b n1 rr rest, own t tr = [GCalled t (GNm q); GSub t None u c; GBack t (AwCall None u) rr; GRet t (Ok x)] /\ nm_asks q c /\
    ((exists m, rr = Ok (GV m) /\ on_link None tr = a ++ (n0, OCall u c) :: b ++ (n1, ORet u (RMsg m)) :: rest /\ hid m = h /\ (forall y, nm_value q m = Some y -> x = GV y) /\
        (exists n2 bs, In (n2, ORecv bs) b /\ brings bs m) /\ (sole h a b -> first_of h b m)) \/
     (rr = Err ETimeout /\ on_link None tr = a ++ (n0, OCall u c) :: b ++ (n1, ORet u (RExc ETimeout)) :: rest /\ x = GV (nm_fallback q) /\
        (sole h a b -> none_before h (n0 + tmo) b))).
Proof. exact (GatewayAnswer.query_result ord es s tr t q n n' x h tmo). Qed.
Print Assumptions C81_partial.
(** how every request ends, whatever its parameters *)
Theorem C81_run_partial ord es s tr t q n n' r : gexec ord gw0 es s tr -> In (n, GCalled t (GNm q)) tr -> In (n', GRet t r) tr ->
  exists h, own t tr = GCalled t (GNm q) :: h ++ [GRet t r] /\ nm_run t q h r.
Proof. exact (GatewayAnswer.nm_answer ord es s tr t q n n' r). Qed.
Print Assumptions C81_run_partial.
Definition x_query : list gevent := x_ready ++ [GCall (GNm (NmEndPoints 5)); x_ack 2; x_resume 1; GConn None (EvPacket [35; 2; 0; 64; 9; 0; 0; 82; 6; 1; 5; 0; 3; 1]); x_resume 1].
Example C81_example : exists s tr m, gexec x_ord gw0 x_query s tr /\ In (0, GCalled 1 (GNm (NmEndPoints 5))) tr /\ In (0, GRet 1 (Ok (GV (VInt 4)))) tr /\
  nm_valid (NmEndPoints 5) /\ nm_report (NmEndPoints 5) = Some (hid m, 3000) /\ nm_value (NmEndPoints 5) m = Some (VInt 4) /\
  exists a c b, on_link None tr = a ++ (0, OCall 1 c) :: b ++ [(0, ORet 1 (RMsg m))] /\ sole (hid m) a b.
Proof.
  assert (E : exists s tr m, gexec x_ord gw0 x_query s tr /\ (exists a c b, on_link None tr = a ++ (0, OCall 1 c) :: b ++ [(0, ORet 1 (RMsg m))] /\ sole (82 * 256 + 6) a b) /\
    In (0, GCalled 1 (GNm (NmEndPoints 5))) tr /\ In (0, GRet 1 (Ok (GV (VInt 4)))) tr /\ hid m = 82 * 256 + 6 /\ nm_value (NmEndPoints 5) m = Some (VInt 4)).
  { eexists _, _, _. split; [apply GatewayNm.grun_exec; vm_compute; reflexivity|]. split.
    - match goal with |- exists a c b, ?t = _ /\ _ => exists (firstn 4 t), (CSendRecv (VObj (CMsg m_NetworkManagementProxy_MultiChannelEndPointGet) [("seqNo", VI false 1 1); ("nodeID", VI false 1 5)]) 0 0 (82 * 256 + 6) 3000), (firstn 5 (skipn 5 t)) end.
      split; [vm_compute; reflexivity|]. split; intros n u c J; vm_compute in J; repeat (destruct J as [J|J]; [try discriminate J; injection J as <- <- <-; discriminate|]); contradiction J.
    - split; [vm_compute; tauto|]. split; [vm_compute; tauto|]. split; vm_compute; reflexivity. }
  destruct E as (s & tr & m & X & R & C & G & H & V). exists s, tr, m. split; [exact X|]. split; [exact C|]. split; [exact G|]. split; [cbn; unfold byte; lia|]. split; [rewrite H; reflexivity|]. split; [exact V|].
  rewrite H. exact R.
Qed.

(** ** C91 *)
(** a report: request [k], status, node [n] *)
Definition x_removed (k st n : Z) : gevent := GConn None (EvPacket [35; 2; 0; 64; 9; 0; 0; 52; 8; k; st; n]).
(** the report that node 5 was removed arrives when remove() of node 5 has given up and remove() of node 6 waits *)
Definition x_late_removal : list gevent := x_ready ++ [GCall (remove_call 5 0); x_ack 2; x_resume 1; GAdvance 10000; GConn None (EvTimer 1); x_resume 1; x_resume 1;
  GCall (remove_call 6 0); x_ack 3; x_removed 1 1 5; x_resume 2; x_resume 2].
Definition node_of (m : val) : option val := match m with VObj _ d => aget "nodeID" d | _ => None end.
Theorem C91_refuted : exists es s tr r r' m, gexec x_ord gw0 es s tr /\ In (0, GCalled 1 (remove_call 5 0)) tr /\ In (10000, GRet 1 r') tr /\ remove_result r' = Ok false /\
  In (10000, GCalled 2 (remove_call 6 0)) tr /\ In (10000, GRet 2 r) tr /\ remove_result r = Ok true /\
  In (10000, GBack 2 (AwCall None 2) (Ok (GV m))) tr /\ node_of m = Some (VI false 1 5) /\
  (forall n k bs, In (n, ORecv bs) (on_link None tr) -> bs <> [35; 2; 0; 64; 9; 0; 0; 52; 8; k; 1; 6]).
Proof.
  exists x_late_removal. eexists _, _, (Ok (GV (VI false 1 1))), (Ok (GV (VInt 2))), _. split; [apply GatewayNm.grun_exec; vm_compute; reflexivity|].
  split; [vm_compute; tauto|]. split; [vm_compute; tauto|]. split; [reflexivity|]. split; [vm_compute; tauto|]. split; [vm_compute; tauto|]. split; [reflexivity|].
  split; [vm_compute; do 40 (try (left; reflexivity); right)|]. split; [vm_compute; reflexivity|].
  intros n k bs. vm_compute. intuition congruence.
Qed.
Print Assumptions C91_refuted.
(** remove() makes one request about its node.  It is True exactly if the report it got after that says DONE; this is the first such
    report if nobody else waits for one.  Without a report for ten seconds it is False. *)
Theorem C91_partial ord es s tr t id ep n n' r d : gexec ord gw0 es s tr -> In (n, GCalled t (remove_call id ep)) tr -> In (n', GRet t r) tr -> byte id -> remove_result r = Ok d ->
  exists u c a n0 b n1 rest, nm_asks (NmRemoveFailed id) c /\
    ((exists m, on_link None tr = a ++ (n0, OCall u c) :: b ++ (n1, ORet u (RMsg m)) :: rest /\ hid m = 52 * 256 + 8 /\ (d = true <-> is_number (attribute m "status") 1) /\
        (exists n2 bs, In (n2, ORecv bs) b /\ brings bs m) /\ (sole (52 * 256 + 8) a b -> first_of (52 * 256 + 8) b m)) \/
     (on_link None tr = a ++ (n0, OCall u c) :: b ++ (n1, ORet u (RExc ETimeout)) :: rest /\ d = false /\
        (sole (52 * 256 + 8) a b -> none_before (52 * 256 + 8) (n0 + 10000) b))).
Proof. exact (GatewayAnswer.remove_answer ord es s tr t id ep n n' r d). Qed.
Print Assumptions C91_partial.
Definition x_removal : list gevent := x_ready ++ [GCall (remove_call 5 0); x_ack 2; x_resume 1; x_removed 1 1 5; x_resume 1].
Example C91_example : exists s tr m, gexec x_ord gw0 x_removal s tr /\ In (0, GCalled 1 (remove_call 5 0)) tr /\ In (0, GRet 1 (Ok (GV (VI false 1 1)))) tr /\
  remove_result (Ok (GV (VI false 1 1))) = Ok true /\ is_number (attribute m "status") 1 /\
  exists a c b, on_link None tr = a ++ (0, OCall 1 c) :: b ++ [(0, ORet 1 (RMsg m))] /\ sole (52 * 256 + 8) a b.
Proof.
  eexists _, _, _. split; [apply GatewayNm.grun_exec; vm_compute; reflexivity|].
  match goal with |- context [on_link None ?t] => assert (R : exists a c b, on_link None t = a ++ (0, OCall 1 c) :: b ++ [(0, ORet 1 (RMsg (VObj (CMsg m_NetworkManagementInclusion_FailedNodeRemoveStatus) [("seqNo", VI false 1 1); ("status", VI false 1 1); ("nodeID", VI false 1 5)])))] /\ sole (52 * 256 + 8) a b) end.
  { match goal with |- exists a c b, ?t = _ /\ _ => exists (firstn 4 t), (CSendRecv (VObj (CMsg m_NetworkManagementInclusion_FailedNodeRemove) [("seqNo", VI false 1 1); ("nodeID", VI false 1 5)]) 0 0 (52 * 256 + 8) 10000), (firstn 5 (skipn 5 t)) end.
    split; [vm_compute; reflexivity|]. split; intros n u c J; vm_compute in J; repeat (destruct J as [J|J]; [try discriminate J; injection J as <- <- <-; discriminate|]); contradiction J. }
  split; [vm_compute; tauto|]. split; [vm_compute; tauto|]. split; [reflexivity|]. split; [|exact R]. vm_compute. reflexivity.
Qed.
