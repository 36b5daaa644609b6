(** C40-C46: the gateway.  Statements only; proofs are in Gateway*.v.
    [ord] is the order in which python iterates over a set. *)
From Coq Require Import String ZArith List Bool Lia.
From Verif Require Import Py Schema Registry Codec Waiter Conn SpecConn Gateway SpecGateway.
From Verif Require GatewayNm GatewayIp GatewayMode GatewayNode GatewayTable GatewayUnsol.
Import ListNotations.
Open Scope list_scope.
Open Scope string_scope.
Open Scope list_scope.
Open Scope Z_scope.

Definition x_ord (l : list Z) : list Z := l.
(** the gateway's socket is opened; the first request (to read the mode) is acknowledged *)
Definition x_ack (q : Z) : gevent := GConn None (EvPacket [35; 2; 64; 0; q; 0; 0]).
Definition x_open : list gevent := [GCall GConnect; GEnv 0 (Ok tt); x_ack 1; GConn None (EvResume 0)].

(** ** C40 *)
(** [k] requests, each of them acknowledged *)
Fixpoint x_requests (k : nat) : list gevent :=
  match k with
  | O => x_open
  | S k' => x_requests k' ++ [GAdvance 10; GCall (GNm NmAddStop); x_ack (Z.of_nat (k + 1) mod 256); GConn None (EvResume k)]
  end.
Theorem C40_refuted : exists es s tr s' os, gexec x_ord gw0 es s tr /\ opened None tr /\ nm_requests tr = 255 /\
  gstep x_ord s (GCall (GNm NmAddStop)) = Some (s', os) /\ filter gwrites os = [] /\ In (GRet 256 (Err EOverflow)) os.
Proof.
  exists (x_requests 255). eexists _, _, _, _. split; [apply GatewayNm.grun_exec; vm_compute; reflexivity|].
  split; [exists 0, 0%nat, (GV VNone); vm_compute; tauto|]. split; [vm_compute; reflexivity|]. split; [vm_compute; reflexivity|]. split; [vm_compute; reflexivity|]. vm_compute. tauto.
Qed.
Print Assumptions C40_refuted.
(** from then on no request is possible *)
Theorem C40_forever_refuted ord es s tr q : gexec ord gw0 es s tr -> nm_valid q -> 255 <= nm_requests tr ->
  exists s' os t, gstep ord s (GCall (GNm q)) = Some (s', os) /\ filter gwrites os = [] /\ In (GRet t (Err EOverflow)) os.
Proof. exact (GatewayNm.request_lost ord es s tr q). Qed.
Print Assumptions C40_forever_refuted.
Theorem C40_list_refuted ord es s tr : gexec ord gw0 es s tr -> 255 <= nm_requests tr ->
  exists s' os t, gstep ord s (GCall GList) = Some (s', os) /\
    ((exists l, os = [GCalled t GList; GRet t (Ok (GV (VNodeList l)))]) \/ filter gwrites os = [] /\ In (GRet t (Err EOverflow)) os).
Proof. exact (GatewayNm.list_lost ord es s tr). Qed.
Print Assumptions C40_list_refuted.
(** the first 255 requests are sent, numbered one after the other *)
Theorem C40_partial ord es s tr q : gexec ord gw0 es s tr -> opened None tr -> nm_valid q -> nm_requests tr < 255 ->
  exists s' os u, gstep ord s (GCall (GNm q)) = Some (s', os) /\
    filter gwrites os = [GAt None (OWire (Some u) (packet ((sends (on_link None tr) + 1) mod 256) 0 0 (nm_bytes q (nm_requests tr + 1))))].
Proof. exact (GatewayNm.request_sent ord es s tr q). Qed.
Print Assumptions C40_partial.
Theorem C40_list_partial ord es s tr : gexec ord gw0 es s tr -> opened None tr -> nm_requests tr < 255 ->
  exists s' os, gstep ord s (GCall GList) = Some (s', os) /\
    ((exists t l, os = [GCalled t GList; GRet t (Ok (GV (VNodeList l)))]) \/
     exists u, filter gwrites os = [GAt None (OWire (Some u) (packet ((sends (on_link None tr) + 1) mod 256) 0 0 [82; 1; nm_requests tr + 1]))]).
Proof. exact (GatewayNm.list_sent ord es s tr). Qed.
Print Assumptions C40_list_partial.
Example C40_example : exists s tr, gexec x_ord gw0 (x_requests 3) s tr /\ opened None tr /\ nm_requests tr = 3 /\ nm_valid (NmCapability 7 127) /\ nm_valid (NmDsk true 2 (VPBytes (repeat 9 16))).
Proof.
  eexists _, _. split; [apply GatewayNm.grun_exec; vm_compute; reflexivity|]. split; [exists 0, 0%nat, (GV VNone); vm_compute; tauto|]. split; [vm_compute; reflexivity|]. split; [cbn; unfold byte; lia|].
  cbn. split; [lia|]. eexists. split; [reflexivity|]. split; [reflexivity|]. repeat (constructor; [unfold byte; lia|]). constructor.
Qed.

Definition x_resume (u : nat) : gevent := GConn None (EvResume u).
(** ** C42 *)
Definition x_adv (n : Z) : gevent := GConn None (EvPacket [88; 1; 0; n; 253; 0; 0; 0; 0; 0; 0; 0; 0; 0; 0; 0; 0; 0; 0; n; 1; 2; 3; 4]).
(** two lookups at the same time: the address of node 6 is taken from the advertisement for node 5 *)
Theorem C42_refuted : exists es s tr k t n ip, gexec x_ord gw0 es s tr /\ In (k, GFound t n ip) tr /\ forall k' bs, In (k', ORecv bs) (on_link None tr) -> ~ advertises bs n ip.
Proof.
  exists (x_open ++ [GCall (GIp 5); GCall (GIp 6); x_adv 5; x_resume 1; x_resume 2]). eexists _, _, 0, 2%nat, 6, (VIPv6 336294682933583715844663186250927177733).
  split; [apply GatewayNm.grun_exec; vm_compute; reflexivity|]. split; [vm_compute; tauto|].
  intros k' bs J (d & E & N & _). vm_compute in J. repeat (destruct J as [J|J]; [try discriminate J; injection J as <- <-; vm_compute in E; try discriminate E; injection E as <-; discriminate N|]). exact J.
Qed.
Print Assumptions C42_refuted.
(** one after the other: the advertisement for node 5 arrives after that lookup was given up *)
Theorem C42_late_refuted : exists es s tr k t n ip u a k0 b k1 m rest, gexec x_ord gw0 es s tr /\ In (k, GFound t n ip) tr /\
  on_link None tr = a ++ (k0, OCall u (CWait advert 3000)) :: b ++ (k1, ORet u (RMsg m)) :: rest /\ In (k0, GSub t None u (CWait advert 3000)) tr /\ only_lookup a b /\
  forall k' bs, In (k', ORecv bs) (on_link None tr) -> ~ advertises bs n ip.
Proof.
  exists (x_open ++ [GCall (GIp 5); GAdvance 3000; GConn None (EvTimer 1); x_resume 1; x_resume 1; GCall (GIp 6); x_adv 5; x_resume 2]). eexists _, _, 3000, 2%nat, 6, (VIPv6 336294682933583715844663186250927177733), 2%nat.
  eexists [_; _; _; _; _; _], _, [_; _], _, _, _. split; [apply GatewayNm.grun_exec; vm_compute; reflexivity|]. split; [vm_compute; tauto|]. split; [vm_compute; reflexivity|]. split; [vm_compute; tauto|]. split.
  - split.
    + intros n u c J W. repeat (destruct J as [J|J]; [try discriminate J; injection J as <- <- <-; try discriminate W; do 2 eexists; cbn; tauto|]). destruct J.
    + intros n u c J. repeat (destruct J as [J|J]; [discriminate J|]). destruct J.
  - intros k' bs J (d & E & N & _). vm_compute in J. repeat (destruct J as [J|J]; [try discriminate J; injection J as <- <-; vm_compute in E; try discriminate E; injection E as <-; discriminate N|]). exact J.
Qed.
Print Assumptions C42_late_refuted.
(** The address is that of the message that ended the wait which followed the solicitation for this node; if nobody else waited for an advertisement, that is
    the first advertisement received since. *)
Theorem C42_partial ord es s tr k t n ip : gexec ord gw0 es s tr -> In (k, GFound t n ip) tr -> exists h bs sent u m h' k0 k1 a b rest,
  own t tr = h ++ [GAsk t n bs sent; GSub t None u (CWait advert 3000); GBack t (AwCall None u) (Ok (GV m)); GFound t n ip] ++ h' /\ (byte n -> bs = [88; 4; 0; n]) /\
  on_link None tr = a ++ (k0, OCall u (CWait advert 3000)) :: b ++ (k1, ORet u (RMsg m)) :: rest /\ ip = getattr m "ipv6" /\ (only_lookup a b -> first_of advert b m).
Proof. exact (GatewayIp.found_story ord es s tr k t n ip). Qed.
Print Assumptions C42_partial.
Example C42_example : exists s tr ip, gexec x_ord gw0 (x_open ++ [GCall (GIp 5); x_adv 5; x_resume 1]) s tr /\ In (0, GFound 1 5 ip) tr.
Proof. eexists _, _, _. split; [apply GatewayNm.grun_exec; vm_compute; reflexivity|]. vm_compute. tauto. Qed.

(** ** C41 *)
Definition x_send (n : Z) : gevent := GCall (GSendTo n (VObj (CMsg m_ZwavePlusInfo_Get) []) 0 0 3000).
Definition x_message (l : nat) : gevent := GConn (Some l) (EvPacket [35; 2; 0; 80; 9; 0; 0; 95; 3; 1]).
(** two sends at the same time open two connections; a message on the first of them is not attributed to the node *)
Theorem C41_refuted : exists es s tr k m, gexec x_ord gw0 es s tr /\ made 5 0 tr /\ made 5 1 tr /\
  In (k, GBack 1 (AwOpen (Some 0%nat)) (Ok (GV VNone))) tr /\ In (k, GBack 2 (AwOpen (Some 1%nat)) (Ok (GV VNone))) tr /\ In (k, GLost (Some 0%nat) m) tr.
Proof.
  exists (x_open ++ [x_send 5; x_send 5; x_adv 5; x_resume 1; x_resume 2; GEnv 1 (Ok tt); GEnv 2 (Ok tt); x_message 0]). eexists _, _, 0, _.
  split; [apply GatewayNm.grun_exec; vm_compute; reflexivity|].
  split; [exists 0, 1%nat, 336294682933583715844663186250927177733; vm_compute; tauto|]. split; [exists 0, 2%nat, 336294682933583715844663186250927177733; vm_compute; tauto|].
  split; [vm_compute; tauto|]. split; [vm_compute; tauto|]. vm_compute. tauto.
Qed.
Print Assumptions C41_refuted.
(** A command goes over a connection made for its node; a connection belongs to one node; what arrives on a connection is attributed to its node if at all;
    once a connection to a node is open, no later call opens another; connections are made only for calls that need one. *)
Theorem C41_partial ord es s tr : gexec ord gw0 es s tr ->
  (forall k t l u c, In (k, GSub t (Some l) u c) tr -> exists k' n cmd sep dep tmo, In (k', GCalled t (GSendTo n cmd sep dep tmo)) tr /\ c = CSend cmd sep dep tmo /\ made n l tr) /\
  (forall l n n', made n l tr -> made n' l tr -> n = n') /\
  (forall k l n ep cmd fl, In (k, GTold (Some l) n ep cmd fl) tr -> made n l tr) /\
  (forall a k t c b n, tr = a ++ (k, GCalled t c) :: b -> aims c = Some n -> established n a -> forall k' l n' ip, ~ In (k', GNew t l n' ip) tr) /\
  (forall k t l n ip, In (k, GNew t l n ip) tr -> exists k' c, In (k', GCalled t c) tr /\ aims c = Some n).
Proof. exact (GatewayNode.node_links ord es s tr). Qed.
Print Assumptions C41_partial.
Definition x_sent : list gevent := x_open ++ [x_send 5; x_adv 5; x_resume 1; GEnv 1 (Ok tt); x_message 0].
Definition x_trace (es : list gevent) : gtrace := match grun x_ord gw0 es with Some (_, tr) => tr | None => [] end.
Example C41_example : exists s tr a b m, gexec x_ord gw0 (x_sent ++ [x_send 5]) s tr /\
  tr = a ++ (0, GCalled 2 (GSendTo 5 (VObj (CMsg m_ZwavePlusInfo_Get) []) 0 0 3000)) :: b /\ established 5 a /\ In (0, GTold (Some 0%nat) 5 (VU 7 0) m (VInt 0)) a /\
  In (0, GSub 2 (Some 0%nat) 1 (CSend (VObj (CMsg m_ZwavePlusInfo_Get) []) 0 0 3000)) b.
Proof.
  eexists _, (x_trace (x_sent ++ [x_send 5])), (x_trace x_sent), (skipn (length (x_trace x_sent) + 1) (x_trace (x_sent ++ [x_send 5]))), _.
  split; [apply GatewayNm.grun_exec; vm_compute; reflexivity|]. split; [vm_compute; reflexivity|]. split; [|split; vm_compute; tauto].
  exists 0, 1%nat, 0%nat, (GV VNone). split; [vm_compute; tauto|]. exists 0, 1%nat, 336294682933583715844663186250927177733. vm_compute. tauto.
Qed.

(** ** C46 *)
Definition x_mode (m : Z) : gevent := GConn None (EvPacket [35; 2; 0; 80; 9; 0; 0; 95; 3; m]).
(** true is returned although the gateway never acknowledged the new mode, nor reported it *)
Theorem C46_refuted : exists es s tr k, gexec x_ord gw0 es s tr /\ In (k, GRet 1 (Ok (GV (VBool true)))) tr /\
  (exists k' tmo, In (k', GCalled 1 (GMode 2 tmo)) tr) /\ (exists k' u, In (k', GBack 1 (AwCall None u) (Ok (GV (VBool false)))) tr) /\
  forall k' bs m, In (k', ORecv bs) (on_link None tr) -> brings bs m -> mode_of m <> Some 2.
Proof.
  exists (x_open ++ [x_mode 1; x_resume 0; GCall (GMode 2 3000); x_ack 2; x_resume 1; x_mode 1; x_resume 1; GAdvance 3000; GConn None (EvTimer 2); x_resume 2; x_resume 2]). eexists _, _, 3000.
  split; [apply GatewayNm.grun_exec; vm_compute; reflexivity|]. split; [vm_compute; tauto|]. split; [exists 0, 3000; vm_compute; tauto|]. split; [exists 3000, 2%nat; vm_compute; tauto|].
  intros k' bs m J B. vm_compute in J.
  repeat (destruct J as [J|J]; [try discriminate J; injection J as <- <-; destruct B as [(d & c & a & E & -> & _ & _ & _ & Z & C)|(d & -> & E)]; vm_compute in E; try discriminate E; injection E as <-; vm_compute in C; try discriminate C;
    injection C as <- <-; discriminate|]). destruct J.
Qed.
Print Assumptions C46_refuted.
(** the set command is sent exactly when the mode that was read differs; true is returned when the mode is right, or when the set command was not answered
    with an exception *)
Theorem C46_partial ord es s tr t m tmo n n' r : gexec ord gw0 es s tr -> In (n, GCalled t (GMode m tmo)) tr -> In (n', GRet t r) tr ->
  exists h, own t tr = GCalled t (GMode m tmo) :: h ++ [GRet t r] /\ mode_run t m tmo h r.
Proof. exact (GatewayMode.mode_result ord es s tr t m tmo n n' r). Qed.
Print Assumptions C46_partial.
Example C46_example : exists s tr, gexec x_ord gw0 (x_open ++ [x_mode 1; x_resume 0; GCall (GMode 2 3000); x_ack 2; x_resume 1; x_mode 1; x_resume 1; x_ack 3; x_resume 2]) s tr /\
  In (0, GCalled 1 (GMode 2 3000)) tr /\ In (0, GRet 1 (Ok (GV (VBool true)))) tr.
Proof. eexists _, _. split; [apply GatewayNm.grun_exec; vm_compute; reflexivity|]. split; vm_compute; tauto. Qed.

(** ** C43 *)
(** a node list report; bit [i] of [mask] is node [i + 1] *)
Definition x_list (flags mask : Z) : list Z := [35; 2; flags; 80; 9; 0; 0; 82; 2; 1; 0; 1; mask] ++ repeat 0 28.
(** connecting to a gateway with the nodes of [mask] *)
Definition x_ready (mask : Z) : list gevent :=
  x_open ++ [x_mode 1; x_resume 0; GEnv 0 (Ok tt); x_ack 2; x_resume 1; x_ack 3; x_resume 2; GConn None (EvPacket (x_list 0 mask)); x_resume 2].
Definition x_known : list gevent := x_ready 1 ++ [x_adv 1; x_resume 3].
Definition x_report (mask : Z) : gevent := GUnsol (x_list 0 mask) (Some 7).
Definition x_addr (n : Z) : Z := 336294682933583715844663186250927177728 + n.
(** [a] is what happened before, [b] a run in which a report is handled from beginning to end *)
Theorem C43_table_follows ord es1 s1 a es s b t l k k' v : iterates ord -> gexec ord gw0 es1 s1 a -> gexec ord s1 es s b -> undisturbed t (a ++ b) b ->
  In (k, GCalled t (GReport (VNodeList l))) b -> In (k', GRet t (Ok v)) b ->
  (forall n, known s n <> None <-> In n l) /\
  (forall n ip, In n l -> known s1 n = Some ip -> known s n = Some ip) /\
  (forall n, In n l -> known s1 n = None -> exists k'' ip, In (k'', GFound t n ip) b /\ known s n = Some ip) /\
  updates b = 1%nat.
Proof. intros I. exact (GatewayTable.report_done ord I es1 s1 a es s b t l k k' v). Qed.
Print Assumptions C43_table_follows.
Definition x_state (es : list gevent) : gw := match grun x_ord gw0 es with Some (s, _) => s | None => gw0 end.
Example C43_example : exists s b, gexec x_ord gw0 x_known (x_state x_known) (x_trace x_known) /\
  gexec x_ord (x_state x_known) [x_report 49; x_adv 5; x_resume 4; x_adv 6; x_resume 5] s b /\ undisturbed 1 (x_trace x_known ++ b) b /\
  In (0, GCalled 1 (GReport (VNodeList [1; 5; 6]))) b /\ In (0, GRet 1 (Ok (GV VNone))) b /\ known s 1 = Some (VIPv6 (x_addr 1)) /\ known s 6 = Some (VIPv6 (x_addr 6)).
Proof.
  eexists _, _. split; [apply GatewayNm.grun_exec; vm_compute; reflexivity|]. split; [apply GatewayNm.grun_exec; vm_compute; reflexivity|]. split; [|split; [vm_compute; tauto|split; [vm_compute; tauto|split; vm_compute; reflexivity]]].
  intros k o t' k' c J T N _. exfalso. vm_compute in J. repeat (destruct J as [J|J]; [injection J as <- <-; vm_compute in T; (discriminate T || (injection T as <-; exact (N eq_refl)))|]). exact J.
Qed.

(** ** C44 *)
(** node 5 does not answer: node 6 is not even asked for, and nobody is told *)
Theorem C44_refuted : exists es s tr, gexec x_ord gw0 es s tr /\ In (0, GCalled 1 (GReport (VNodeList [5; 6]))) tr /\ In (3000, GRet 1 (Err ETimeout)) tr /\
  known s 6 = None /\ (forall k bs sent, ~ In (k, GAsk 1 6 bs sent) tr) /\ updates tr = 0%nat.
Proof.
  exists (x_ready 0 ++ [x_report 48; GAdvance 3000; GConn None (EvTimer 3); x_resume 3; x_resume 3]). eexists _, _. split; [apply GatewayNm.grun_exec; vm_compute; reflexivity|].
  split; [vm_compute; tauto|]. split; [vm_compute; tauto|]. split; [vm_compute; reflexivity|]. split; [|vm_compute; reflexivity].
  intros k bs sent J. vm_compute in J. repeat (destruct J as [J|J]; [discriminate J|]). exact J.
Qed.
Print Assumptions C44_refuted.
(** what holds after the handling failed: nodes that left are gone, known addresses are kept, the nodes before the unreachable one are added *)
Theorem C44_partial ord es1 s1 a es s b t l k k' e : iterates ord -> gexec ord gw0 es1 s1 a -> gexec ord s1 es s b -> undisturbed t (a ++ b) b ->
  In (k, GCalled t (GReport (VNodeList l))) b -> In (k', GRet t (Err e)) b ->
  (forall n, known s n <> None -> In n l) /\
  (forall n ip, In n l -> known s1 n = Some ip -> known s n = Some ip) /\
  (forall n ip, known s n = Some ip -> known s1 n = Some ip \/ exists k'', In (k'', GFound t n ip) b) /\
  updates b = 0%nat /\
  exists before n after, ord l = before ++ n :: after /\ known s n = None /\ forall m, In m before -> known s m <> None.
Proof. intros I. exact (GatewayTable.report_failed ord I es1 s1 a es s b t l k k' e). Qed.
Print Assumptions C44_partial.
Example C44_example : exists s b, gexec x_ord gw0 x_known (x_state x_known) (x_trace x_known) /\
  gexec x_ord (x_state x_known) [x_report 49; x_adv 5; x_resume 4; GAdvance 3000; GConn None (EvTimer 5); x_resume 5; x_resume 5] s b /\ undisturbed 1 (x_trace x_known ++ b) b /\
  In (0, GCalled 1 (GReport (VNodeList [1; 5; 6]))) b /\ In (3000, GRet 1 (Err ETimeout)) b /\ known s 5 = Some (VIPv6 (x_addr 5)) /\ known s 6 = None.
Proof.
  eexists _, _. split; [apply GatewayNm.grun_exec; vm_compute; reflexivity|]. split; [apply GatewayNm.grun_exec; vm_compute; reflexivity|]. split; [|split; [vm_compute; tauto|split; [vm_compute; tauto|split; vm_compute; reflexivity]]].
  intros k o t' k' c J T N _. exfalso. vm_compute in J. repeat (destruct J as [J|J]; [injection J as <- <-; vm_compute in T; (discriminate T || (injection T as <-; exact (N eq_refl)))|]). exact J.
Qed.

(** ** C45 *)
(** a node list that asks for an acknowledgement gets none, and is not announced *)
Theorem C45_refuted : exists es s tr s' os, gexec x_ord gw0 es s tr /\ listed s 1 (x_addr 1) /\ gstep x_ord s (GUnsol (x_list 128 1) (Some (x_addr 1))) = Some (s', os) /\
  (forall rs b, ~ In (GReply rs b) os) /\ forall l n ep cmd fl, ~ In (GTold l n ep cmd fl) os.
Proof.
  exists x_known. eexists _, _, _, _. split; [apply GatewayNm.grun_exec; vm_compute; reflexivity|]. split; [vm_compute; tauto|]. split; [vm_compute; reflexivity|].
  split; [intros rs b J|intros l n ep cmd fl J]; repeat (destruct J as [J|J]; [discriminate J|]); exact J.
Qed.
Print Assumptions C45_refuted.
(** a packet that is cut off within its header asks for an acknowledgement; handling it raises *)
Theorem C45_cut_refuted : exists es s tr s' os e, gexec x_ord gw0 es s tr /\ listed s 1 (x_addr 1) /\ gstep x_ord s (GUnsol [35; 2; 128] (Some (x_addr 1))) = Some (s', os) /\
  os = [GPacket [35; 2; 128] (Some (x_addr 1)); GErr e].
Proof.
  exists x_known. eexists _, _, _, _, _. split; [apply GatewayNm.grun_exec; vm_compute; reflexivity|]. split; [vm_compute; tauto|]. split; vm_compute; reflexivity.
Qed.
Print Assumptions C45_cut_refuted.
(** every packet with a whole header that is not a node list *)
Theorem C45_partial ord s f0 f1 sq se de rest m a : let bs := 35 :: 2 :: [f0; f1; sq; se; de] ++ rest in
  bytes_ok bs -> decode bs = Ok m -> is_msg m_NetworkManagementProxy_NodeListReport (getattr m "command") = false ->
  (forall n n', listed s n a -> listed s n' a -> n = n') ->
  exists os, gstep ord s (GUnsol bs (Some a)) = Some (s, GPacket bs (Some a) :: os) /\
    (forall n, listed s n a -> os = (if 128 <=? f0 then [GReply [35; 2; 64; 16 * (f1 / 16 mod 2); sq; de mod 128; se mod 128] a] else []) ++
                                    [GTold None n (VU 7 (se mod 128)) (getattr m "command") (getattr m "headerExtension")]) /\
    ((forall n, ~ listed s n a) -> os = [GLost None (getattr m "command")]).
Proof. exact (GatewayUnsol.told ord s f0 f1 sq se de rest m a). Qed.
Print Assumptions C45_partial.
Theorem C45_unknown ord s bs a s' os : gstep ord s (GUnsol bs (Some a)) = Some (s', os) -> (forall n, ~ listed s n a) ->
  (forall l n ep cmd fl, ~ In (GTold l n ep cmd fl) os) /\ (forall rs b, ~ In (GReply rs b) os).
Proof. exact (GatewayUnsol.unknown ord s bs a s' os). Qed.
Print Assumptions C45_unknown.
Example C45_example : exists s tr m os, gexec x_ord gw0 x_known s tr /\ listed s 1 (x_addr 1) /\ decode [35; 2; 128; 80; 9; 3; 4; 32; 1; 255] = Ok m /\
  gstep x_ord s (GUnsol [35; 2; 128; 80; 9; 3; 4; 32; 1; 255] (Some (x_addr 1))) = Some (s, os) /\ In (GTold None 1 (VU 7 3) (getattr m "command") (VHdr [])) os /\ In (GReply [35; 2; 64; 16; 9; 4; 3] (x_addr 1)) os.
Proof.
  eexists _, _, _, _. split; [apply GatewayNm.grun_exec; vm_compute; reflexivity|]. split; [vm_compute; tauto|]. split; [vm_compute; reflexivity|]. split; [vm_compute; reflexivity|]. split; vm_compute; tauto.
Qed.
