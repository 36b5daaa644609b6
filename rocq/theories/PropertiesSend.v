(** C96: Node.send.  Statements only; proofs are in GatewaySend.v.
    [ord] is the order in which python iterates over a set. *)
From Coq Require Import String ZArith List Bool Lia.
From Verif Require Import Py Schema Registry Codec SpecBits SpecWire Waiter Conn SpecConn Gateway SpecGateway NodeSendM.
From Verif Require GatewayNm GatewaySend.
Import ListNotations.
Open Scope list_scope.
Open Scope string_scope.
Open Scope list_scope.
Open Scope Z_scope.

(** ** C96 *)
(** When send() returns a boolean, the command was written exactly once, with the node's end point as destination, to a connection made for the node.
    True: an acknowledgement with the packet's number arrived on that connection in between.
    False: the time out, or the delay announced by the peer, has passed. *)
Theorem C96_send ord es s tr t id ep cmd tmo n n' r b v : gexec ord gw0 es s tr -> In (n, GCalled t (send_call id ep cmd tmo)) tr -> In (n', GRet t r) tr -> send_result r = Ok (VBool v) ->
  0 <= ep < 128 -> encodes cmd b ->
  exists l u cbs a n0 x n1 rest, made id l tr /\ compose cmd = Ok cbs /\ bits_of cbs = b /\
    on_link (Some l) tr = a ++ (n0, OCall u (CSend cmd 0 ep tmo)) :: (n0, OWire (Some u) (packet ((sends a + 1) mod 256) 0 ep cbs)) :: x ++ (n1, ORet u (RBool v)) :: rest /\
    (if v then exists m bs, In (m, ORecv bs) x /\ acknowledges bs ((sends a + 1) mod 256)
     else ((forall m d, ~ In (m, ORearm u d) x) /\ n0 + tmo <= n1) \/ exists m d y z, x = y ++ (m, ORearm u d) :: z /\ (forall m' d', ~ In (m', ORearm u d') z) /\ m + 1000 * d <= n1) /\
    forall m w, ~ In (m, OWire (Some u) w) (a ++ x ++ (n1, ORet u (RBool v)) :: rest).
Proof. exact (GatewaySend.send_bool ord es s tr t id ep cmd tmo n n' r b v). Qed.
Print Assumptions C96_send.
(** send() returns a boolean or raises *)
Theorem C96_returns ord es s tr t id ep cmd tmo n n' r : gexec ord gw0 es s tr -> In (n, GCalled t (send_call id ep cmd tmo)) tr -> In (n', GRet t r) tr ->
  (exists x, send_result r = Ok (VBool x)) \/ exists e, send_result r = Err e.
Proof. exact (GatewaySend.send_returns ord es s tr t id ep cmd tmo n n' r). Qed.
Print Assumptions C96_returns.
Definition x_ord (l : list Z) : list Z := l.
Definition x_open : list gevent := [GCall GConnect; GEnv 0 (Ok tt); GConn None (EvPacket [35; 2; 64; 0; 1; 0; 0]); GConn None (EvResume 0)].
Definition x_adv (n : Z) : gevent := GConn None (EvPacket [88; 1; 0; n; 253; 0; 0; 0; 0; 0; 0; 0; 0; 0; 0; 0; 0; 0; 0; n; 1; 2; 3; 4]).
Definition x_get : val := VObj (CMsg m_ZwavePlusInfo_Get) [].
(** node 5's end point 2 is asked; its connection is opened; the datagram is acknowledged after 20 ms, or not within 3 s *)
Definition x_ask : list gevent := x_open ++ [GCall (send_call 5 2 x_get 3000); x_adv 5; GConn None (EvResume 1); GEnv 1 (Ok tt)].
Definition x_told : list gevent := x_ask ++ [GAdvance 20; GConn (Some 0%nat) (EvPacket [35; 2; 64; 0; 1; 0; 0]); GConn (Some 0%nat) (EvResume 0)].
Definition x_late : list gevent := x_ask ++ [GAdvance 3000; GConn (Some 0%nat) (EvTimer 0); GConn (Some 0%nat) (EvResume 0); GConn (Some 0%nat) (EvResume 0)].
Example x_get_encodes : encodes x_get (nbits 8 94 ++ nbits 8 1 ++ []).
Proof. apply (E_msg m_ZwavePlusInfo_Get); [|constructor]. unfold registry. repeat (first [left; reflexivity | right]). Qed.
Example C96_example : exists s tr, gexec x_ord gw0 x_told s tr /\ In (0, GCalled 1 (send_call 5 2 x_get 3000)) tr /\ In (20, GRet 1 (Ok (GV (VBool true)))) tr /\
  In (0, OWire (Some 0%nat) [35; 2; 128; 80; 1; 0; 2; 94; 1]) (on_link (Some 0%nat) tr).
Proof.
  eexists _, _. split; [apply GatewayNm.grun_exec; vm_compute; reflexivity|]. split; [vm_compute; tauto|]. split; [vm_compute; tauto|]. vm_compute. tauto.
Qed.
Example C96_example_false : exists s tr, gexec x_ord gw0 x_late s tr /\ In (0, GCalled 1 (send_call 5 2 x_get 3000)) tr /\ In (3000, GRet 1 (Ok (GV (VBool false)))) tr.
Proof. eexists _, _. split; [apply GatewayNm.grun_exec; vm_compute; reflexivity|]. split; vm_compute; tauto. Qed.
