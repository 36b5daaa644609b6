(** C108 and C109: the gateway, the application's table and the node objects together.  Statements only; proofs are in SystemFrom.v, SystemProofs.v, SystemAnswer.v,
    SystemHear.v and SystemReach.v.
    [ord] is the order in which python iterates over a set. *)
From Coq Require Import String ZArith List Bool Lia Permutation.
From Verif Require Import Py Schema Registry Codec SpecBits SpecDecode SpecWire Waiter Conn SpecConn Gateway SpecGateway NodeSendM NodeReq SpecNodeReq SystemM SpecSystem.
From Verif Require AppM SystemProofs SystemAnswer SystemHear SystemReach.
Import ListNotations.
Open Scope list_scope.
Open Scope string_scope.
Open Scope list_scope.
Open Scope Z_scope.

Definition x_ord (l : list Z) : list Z := l.
Definition x_get : val := VObj (CMsg m_ZwavePlusInfo_Get) [].
Definition x_h : Z := 94 * 256 + 2.
(** these nodes are loaded, the gateway is connected *)
Definition x_load (l : list (nat * Z)) : list yevent := flat_map (fun x => map YApp [AppM.ECall (AppM.ALoad (snd x)); AppM.EAnswer (fst x) (Ok (AppM.AInfo [94] 4 16 1 true))]) l.
Definition x_open : list yevent := map YGw [GCall GConnect; GEnv 0 (Ok tt); GConn None (EvPacket [35; 2; 64; 0; 1; 0; 0]); GConn None (EvResume 0)].
Definition x_adv (n : Z) : gevent := GConn None (EvPacket [88; 1; 0; n; 253; 0; 0; 0; 0; 0; 0; 0; 0; 0; 0; 0; 0; 0; 0; n; 1; 2; 3; 4]).
Definition x_addr (n : Z) : Z := 336294682933583715844663186250927177728 + n.
(** the first packet on connection [l] is acknowledged; a report arrives there *)
Definition x_acked (l : nat) : list yevent := map YGw [GConn (Some l) (EvPacket [35; 2; 64; 0; 1; 0; 0]); GConn (Some l) (EvResume 0)].
Definition x_bytes : list Z := [35; 2; 0; 80; 7; 0; 0; 94; 2; 1; 5; 0; 7; 0; 7; 0].
Definition x_answers (l : nat) : yevent := YGw (GConn (Some l) (EvPacket x_bytes)).
Definition x_report : val := VObj (CMsg m_ZwavePlusInfo_Report)
  [("zwavePlusVersion", VI false 1 1); ("roleType", VI false 1 5); ("nodeType", VI false 1 0); ("installerIconType", VI false 2 1792); ("userIconType", VI false 2 1792)].

(** ** C108 *)
(** Two requests at the same time, to nodes 5 and 6: the address of node 6 is taken from the advertisement for node 5 (C42_refuted), so the connection for node 6 is
    one to node 5, and what node 5 sends is returned as node 6's answer.  Nothing that was received advertises this address for node 6. *)
Definition x_wrong : list yevent := x_load [(0%nat, 5); (1%nat, 6)] ++ x_open ++ [YCall 0 (NReq x_h 3000) x_get 3000; YCall 1 (NReq x_h 3000) x_get 3000] ++
  map YGw [x_adv 5; GConn None (EvResume 1); GConn None (EvResume 2); GEnv 1 (Ok tt); GEnv 2 (Ok tt)] ++ x_acked 1 ++ [x_answers 1; YHand 0; YNode 1 (NEvResume 0)].
Theorem C108_refuted : exists s tr o, yexec x_ord sys0 x_wrong s tr /\ nth_error (AppM.a_objs (y_a s)) 1 = Some o /\ AppM.o_root o = 6 /\
  In (0, YN 1 (NRet 0 (RMsg x_report))) tr /\ sent_by 6 0 x_report (x_addr 5) tr /\ (forall a, a <> x_addr 5 -> ~ sent_by 6 0 x_report a tr) /\
  (forall k bs, In (k, ORecv bs) (on_link None (on_gw tr)) -> ~ advertises bs 6 (VIPv6 (x_addr 5))) /\ exists k bs, In (k, ORecv bs) (on_link None (on_gw tr)) /\ advertises bs 5 (VIPv6 (x_addr 5)).
Proof.
  eexists _, _, _. split; [apply SystemProofs.yrun_exec; vm_compute; reflexivity|]. split; [vm_compute; reflexivity|]. split; [reflexivity|]. split; [vm_compute; tauto|]. split; [|split; [|split]].
  - eapply (SB_link _ _ _ _ _ 0 1%nat x_bytes x_report); [vm_compute; tauto|exists 0, 2%nat; vm_compute; tauto|exists 0, 2%nat; vm_compute; tauto| |reflexivity].
    unfold zip_from. do 7 eexists. split; [reflexivity|]. split; [reflexivity|]. split; vm_compute; reflexivity.
  - intros a NE S. assert (L : exists k t, In (k, YG (GFound t 6 (VIPv6 a))) _) by (destruct S as [? ? ? _ L|? ? ? ? _ _ L|? ? ? _ _ L]; exact L). clear S.
    destruct L as (k & t & J). vm_compute in J. repeat (destruct J as [J|J]; [try discriminate J; injection J as <- <- <-; elim NE; reflexivity|]). exact J.
  - intros k bs J (d & E & N & _). vm_compute in J. repeat (destruct J as [J|J]; [try discriminate J; injection J as <- <-; vm_compute in E; try discriminate E; injection E as <-; discriminate N|]). exact J.
  - exists 0, [88; 1; 0; 5; 253; 0; 0; 0; 0; 0; 0; 0; 0; 0; 0; 0; 0; 0; 0; 5; 1; 2; 3; 4]. split; [vm_compute; tauto|]. unfold advertises. eexists. split; [vm_compute; reflexivity|]. split; vm_compute; reflexivity.
Qed.
Print Assumptions C108_refuted.
(** What sendAndReceive of a node object returns is of the kind asked for.  Before the return, in this order: the command was given to the gateway for the object's node and end point, that sending
    succeeded, and the object was given the message, which that end point had sent from an address the gateway had found for that node (SpecSystem.sent_by). *)
Theorem C108_partial ord es s tr a k i u m b n h tmo : yexec ord sys0 es s tr -> tr = a ++ (k, YN i (NRet u (RMsg m))) :: b -> In (n, YN i (NCall u (NReq h tmo))) tr ->
  hid m = h /\ exists o a0 k0 a1 k1 a2, nth_error (AppM.a_objs (y_a s)) i = Some o /\
    a = a0 ++ (k0, YN i (NSent u (Ok true))) :: a1 ++ (k1, YN i (NRecv m (Ok true))) :: a2 /\
    (exists ip, sent_by (AppM.o_root o) (AppM.o_ep o) m ip (a0 ++ (k0, YN i (NSent u (Ok true))) :: a1)) /\
    exists t cmd stmo x ku kc kr, In (ku, YUse i u t cmd stmo) a0 /\ In (kc, YG (GCalled t (send_call (AppM.o_root o) (AppM.o_ep o) cmd stmo))) a0 /\
      In (kr, YG (GRet t x)) a0 /\ sent_result x = Ok true.
Proof. exact (SystemAnswer.answer ord es s tr a k i u m b n h tmo). Qed.
Print Assumptions C108_partial.
(** The command of a request whose sending succeeded was written to a connection made for the object's node, to an address found for it, with the object's end point as destination,
    and an acknowledgement with the packet's number arrived on that connection. *)
Theorem C108_command_partial ord es s tr k i u t cmd stmo k' : yexec ord sys0 es s tr -> In (k, YUse i u t cmd stmo) tr -> In (k', YN i (NSent u (Ok true))) tr ->
  exists o, nth_error (AppM.a_objs (y_a s)) i = Some o /\ forall b, 0 <= AppM.o_ep o < 128 -> encodes cmd b ->
    exists l ip w cbs a n0 q x n1 rest, linked_to (AppM.o_root o) l ip tr /\ located (AppM.o_root o) ip tr /\ compose cmd = Ok cbs /\ bits_of cbs = b /\
      on_link (Some l) (on_gw tr) = a ++ (n0, OWire (Some w) (packet q 0 (AppM.o_ep o) cbs)) :: x ++ (n1, ORet w (RBool true)) :: rest /\
      exists m bs, In (m, ORecv bs) x /\ acknowledges bs q.
Proof. exact (SystemAnswer.command ord es s tr k i u t cmd stmo k'). Qed.
Print Assumptions C108_command_partial.
(** Whatever a node object is given was sent by that end point from an address found for that node. *)
Theorem C108_given_partial ord es s tr a k i m r b : yexec ord sys0 es s tr -> tr = a ++ (k, YN i (NRecv m r)) :: b ->
  exists o, nth_error (AppM.a_objs (y_a s)) i = Some o /\ exists ip, sent_by (AppM.o_root o) (AppM.o_ep o) m ip a.
Proof. intros X. exact (SystemAnswer.v_recv _ _ _ (SystemAnswer.yexec_inv ord es s tr X) a k i m r b). Qed.
Print Assumptions C108_given_partial.
(** node 5 is asked; its connection is opened; the datagram is acknowledged after 20 ms and the report follows 30 ms later *)
Definition x_sent : list yevent := x_load [(0%nat, 5)] ++ x_open ++ [YCall 0 (NReq x_h 3000) x_get 3000] ++ map YGw [x_adv 5; GConn None (EvResume 1); GEnv 1 (Ok tt)] ++ [YAdvance 20] ++ x_acked 0 ++ [YAdvance 30].
Definition x_ask : list yevent := x_sent ++ [x_answers 0; YHand 0; YNode 0 (NEvResume 0)].
Example C108_case : exists s tr, yexec x_ord sys0 x_ask s tr /\ In (0, YN 0 (NCall 0 (NReq x_h 3000))) tr /\ In (0, YUse 0 0 1 x_get 3000) tr /\
  In (20, YN 0 (NSent 0 (Ok true))) tr /\ In (50, YN 0 (NRecv x_report (Ok true))) tr /\ In (50, YN 0 (NRet 0 (RMsg x_report))) tr /\
  In (0, YG (GAt (Some 0%nat) (OWire (Some 0%nat) [35; 2; 128; 80; 1; 0; 0; 94; 1]))) tr.
Proof. eexists _, _. split; [apply SystemProofs.yrun_exec; vm_compute; reflexivity|]. repeat split; vm_compute; tauto. Qed.

(** ** C109 *)
(** Two requests of one node at the same time open two connections, of which the gateway keeps the second (C41_refuted).  The report that arrives on the first, long before the
    time out of the request that waits for it (and is the only one to), is dropped; the request times out. *)
Definition x_lost : list yevent := x_load [(0%nat, 5)] ++ x_open ++ [YCall 0 (NReq x_h 3000) x_get 3000; YCall 0 (NReq (32 * 256 + 3) 3000) (VObj (CMsg m_Basic_Get) []) 3000] ++
  map YGw [x_adv 5; GConn None (EvResume 1); GConn None (EvResume 2); GEnv 1 (Ok tt); GEnv 2 (Ok tt)] ++ x_acked 0 ++ x_acked 1 ++ [YAdvance 20; x_answers 0; YAdvance 2980; YNode 0 (NEvTimer 0); YNode 0 (NEvResume 0); YNode 0 (NEvResume 0)].
Theorem C109_refuted : exists s tr, yexec x_ord sys0 x_lost s tr /\ alone 0 x_h (on_node 0 tr) /\ In (0, YN 0 (NCall 0 (NReq x_h 3000))) tr /\ In (0, YN 0 (NSent 0 (Ok true))) tr /\
  linked_to 5 0 (x_addr 5) tr /\ In (20, YG (GAt (Some 0%nat) (ORecv x_bytes))) tr /\ brings x_bytes x_report /\ hid x_report = x_h /\
  announced tr = [] /\ In (3000, YN 0 (NRet 0 (RExc ETimeout))) tr.
Proof.
  eexists _, _. split; [apply SystemProofs.yrun_exec; vm_compute; reflexivity|]. split; [intros n t' c H E; vm_compute in H; repeat (destruct H as [H|H]; [try discriminate H; injection H as <- <- <-; try reflexivity; discriminate E|]); destruct H|].
  split; [vm_compute; tauto|]. split; [vm_compute; tauto|]. split; [exists 0, 1%nat; vm_compute; tauto|]. split; [vm_compute; tauto|].
  split; [left; do 3 eexists; split; [vm_compute; reflexivity|]; repeat split; vm_compute; reflexivity|]. split; [reflexivity|]. split; [vm_compute; reflexivity|vm_compute; tauto].
Qed.
Print Assumptions C109_refuted.
(** A packet with a command that arrives on the connection the gateway keeps for a node is announced as that node's, once; *)
Theorem C109_link_partial ord es s tr n l bs m ep : yexec ord sys0 es s tr -> In (n, l) (d_conns (g_d (y_g s))) -> only_gateway l (on_gw tr) -> bytes_ok bs -> brings bs m -> zip_from bs ep m ->
  exists s' os, ystep ord s (YGw (GConn (Some l) (EvPacket bs))) = Some (s', os) /\ forall k, announced (ystamp k os) = [(n, Some ep, m, VInt 0)].
Proof. exact (SystemHear.link_announced ord es s tr n l bs m ep). Qed.
Print Assumptions C109_link_partial.
(** and so is one that arrives at the unsolicited port from the address listed for the node (and for no other). *)
Theorem C109_port_partial ord s f0 f1 sq se de rest m a n : let bs := 35 :: 2 :: [f0; f1; sq; se; de] ++ rest in
  bytes_ok bs -> decode bs = Ok m -> is_msg m_NetworkManagementProxy_NodeListReport (getattr m "command") = false ->
  (forall x y, listed (y_g s) x a -> listed (y_g s) y a -> x = y) -> listed (y_g s) n a ->
  exists s' os, ystep ord s (YGw (GUnsol bs (Some a))) = Some (s', os) /\ forall k, announced (ystamp k os) = [(n, Some (se mod 128), getattr m "command", getattr m "headerExtension")].
Proof. exact (SystemHear.packet_announced ord s f0 f1 sq se de rest m a n). Qed.
Print Assumptions C109_port_partial.
(** Each announced message is handled once or still waits to be handled; nothing else is handled. *)
Theorem C109_once ord es s tr : yexec ord sys0 es s tr -> Permutation (announced tr) (begun tr ++ waiting s).
Proof. exact (SystemReach.once ord es s tr). Qed.
Print Assumptions C109_once.
(** Handling it gives what it holds to the object entered for its end point, at once. *)
Theorem C109_given ord es s tr a k t n e c f b i m cl d : yexec ord sys0 es s tr -> tr = a ++ (k, YA (AppM.OCalled t (AppM.AMessage n (Some e) c f))) :: b -> entered n e i a -> holds c m -> m = VObj cl d ->
  exists r b', b = (k, YA (AppM.OHandle t i c f)) :: (k, YN i (NRecv m r)) :: b'.
Proof. intros X. exact (SystemReach.given ord es s tr X a k t n e c f b i m cl d). Qed.
Print Assumptions C109_given.
(** A request whose sending succeeded at [T] returns the first message of its kind that is handled after that and in time, if no other call on the object waits for this kind. *)
Theorem C109_partial ord es s tr a T i u b k t n e c f d0 m cl d h tmo kc kr r : yexec ord sys0 es s tr ->
  tr = (a ++ (T, YN i (NSent u (Ok true))) :: b) ++ (k, YA (AppM.OCalled t (AppM.AMessage n (Some e) c f))) :: d0 ->
  entered n e i (a ++ (T, YN i (NSent u (Ok true))) :: b) -> holds c m -> m = VObj cl d -> hid m = h -> 0 < tmo -> k < T + tmo ->
  In (kc, YN i (NCall u (NReq h tmo))) tr -> alone u h (on_node i tr) -> (forall k' m' r', In (k', YN i (NRecv m' r')) b -> hid m' <> h) ->
  In (kr, YN i (NRet u r)) tr -> r = RMsg m.
Proof. exact (SystemReach.reaches ord es s tr a T i u b k t n e c f d0 m cl d h tmo kc kr r). Qed.
Print Assumptions C109_partial.
Example C109_case_link : exists s tr, yexec x_ord sys0 x_sent s tr /\ In (5, 0%nat) (d_conns (g_d (y_g s))) /\ only_gateway 0 (on_gw tr) /\ bytes_ok x_bytes /\ brings x_bytes x_report /\ zip_from x_bytes 0 x_report.
Proof.
  eexists _, _. split; [apply SystemProofs.yrun_exec; vm_compute; reflexivity|]. split; [vm_compute; tauto|]. split; [|split; [|split]].
  - intros n u c H. vm_compute in H. repeat (destruct H as [H|H]; [try discriminate H; injection H as <- <- <-; exists 1%nat; vm_compute; tauto|]). destruct H.
  - repeat (constructor; [lia|]). constructor.
  - left. do 3 eexists. split; [vm_compute; reflexivity|]. repeat split; vm_compute; reflexivity.
  - do 7 eexists. split; [reflexivity|]. split; [reflexivity|]. split; vm_compute; reflexivity.
Qed.
Example C109_case : exists s tr a b d0, yexec x_ord sys0 x_ask s tr /\
  tr = (a ++ (20, YN 0 (NSent 0 (Ok true))) :: b) ++ (50, YA (AppM.OCalled 1 (AppM.AMessage 5 (Some 0) x_report (VInt 0)))) :: d0 /\
  entered 5 0 0 (a ++ (20, YN 0 (NSent 0 (Ok true))) :: b) /\ holds x_report x_report /\ hid x_report = x_h /\ In (0, YN 0 (NCall 0 (NReq x_h 3000))) tr /\
  alone 0 x_h (on_node 0 tr) /\ (forall k' m' r', In (k', YN 0 (NRecv m' r')) b -> hid m' <> x_h) /\ In (50, YN 0 (NRet 0 (RMsg x_report))) tr /\
  announced tr = [(5, Some 0, x_report, VInt 0)] /\ waiting s = [].
Proof.
  destruct (yrun x_ord sys0 x_ask) as [[s tr]|] eqn:R; [|vm_compute in R; discriminate].
  exists s, tr, (firstn 33 tr), (firstn 4 (skipn 34 tr)), (skipn 39 tr). split; [apply SystemProofs.yrun_exec; exact R|]. vm_compute in R. injection R as <- <-. 
  split; [vm_compute; reflexivity|]. split; [vm_compute; reflexivity|]. split; [reflexivity|]. split; [reflexivity|]. split; [vm_compute; tauto|].
  split; [intros n t' c H E; vm_compute in H; repeat (destruct H as [H|H]; [try discriminate H; injection H as <- <- <-; reflexivity|]); destruct H|].
  split; [intros k' m' r' H; vm_compute in H; repeat (destruct H as [H|H]; [discriminate H|]); destruct H|]. split; [vm_compute; tauto|]. split; vm_compute; reflexivity.
Qed.
(** the gateway lists node 5 with its address; a report of node 5 with source end point 3 arrives at the port *)
Definition x_listed : list yevent := x_load [(0%nat, 5)] ++ x_open ++ map YGw [GUnsol ([35; 2; 0; 80; 9; 0; 0; 82; 2; 1; 0; 1; 16] ++ repeat 0 28) (Some 7); x_adv 5; GConn None (EvResume 1)].
Example C109_case_port : exists s tr m, yexec x_ord sys0 x_listed s tr /\ listed (y_g s) 5 (x_addr 5) /\ (forall x y, listed (y_g s) x (x_addr 5) -> listed (y_g s) y (x_addr 5) -> x = y) /\
  decode (35 :: 2 :: [0; 80; 7; 3; 0] ++ [94; 2; 1; 5; 0; 7; 0; 7; 0]) = Ok m /\ getattr m "command" = x_report.
Proof.
  eexists _, _, _. split; [apply SystemProofs.yrun_exec; vm_compute; reflexivity|]. split; [vm_compute; tauto|]. split; [|split; vm_compute; reflexivity].
  intros x y X Y. vm_compute in X, Y. destruct X as [X|[]], Y as [Y|[]]. injection X as <-. injection Y as <-. reflexivity.
Qed.
