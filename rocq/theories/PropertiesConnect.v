(** C115: connect() sets up the gateway.  Statements only; proofs are in GatewayConnect.v.
    [ord] is the order in which python iterates over a set. *)
From Coq Require Import String ZArith List Bool Lia.
From Verif Require Import Py Schema Registry Codec Waiter Conn SpecConn Gateway SpecGateway SpecConnect.
From Verif Require GatewayNm GatewayConnect.
Import ListNotations.
Open Scope list_scope.
Open Scope string_scope.
Open Scope list_scope.
Open Scope Z_scope.

Definition x_ord (l : list Z) : list Z := l.
Definition x_ack (q : Z) : gevent := GConn None (EvPacket [35; 2; 64; 0; q; 0; 0]).
Definition x_resume (u : nat) : gevent := GConn None (EvResume u).
Definition x_mode (m : Z) : gevent := GConn None (EvPacket [35; 2; 0; 80; 9; 0; 0; 95; 3; m]).
Definition x_adv (n : Z) : gevent := GConn None (EvPacket [88; 1; 0; n; 253; 0; 0; 0; 0; 0; 0; 0; 0; 0; 0; 0; 0; 0; 0; n; 1; 2; 3; 4]).
(** a node list report; bit [i] of [mask] is node [i + 1] *)
Definition x_list (mask : Z) : list Z := [35; 2; 0; 80; 9; 0; 0; 82; 2; 1; 0; 1; mask] ++ repeat 0 28.
(** the first call up to the first address; the gateway is in mode 2 *)
Definition x_ready (mask : Z) : list gevent :=
  [GCall GConnect; GEnv 0 (Ok tt); x_ack 1; x_resume 0; x_mode 2; x_resume 0; x_ack 2; x_resume 1; GEnv 0 (Ok tt); x_ack 3; x_resume 2; x_ack 4; x_resume 3; GConn None (EvPacket (x_list mask)); x_resume 3].
Definition x_state (es : list gevent) : gw := match grun x_ord gw0 es with Some (s, _) => s | None => gw0 end.
Definition x_trace (es : list gevent) : gtrace := match grun x_ord gw0 es with Some (_, tr) => tr | None => [] end.

(** ** C115 *)
(** connect() returns although nothing was ever received from the gateway: it is in no known mode, was told nothing, and no node is known *)
Definition x_expire (u : nat) : list gevent := [GAdvance 3000; GConn None (EvTimer u); GConn None (EvResume u); GConn None (EvResume u)].
Definition x_alone : list gevent := GCall GConnect :: GEnv 0 (Ok tt) :: x_expire 0 ++ x_expire 0 ++ GEnv 0 (Ok tt) :: x_expire 1 ++ x_expire 2 ++ x_expire 2.
Theorem C115_refuted : exists es s tr k v, gexec x_ord gw0 es s tr /\ In (0, GCalled 0 GConnect) tr /\ In (k, GRet 0 (Ok v)) tr /\
  (forall k' bs, ~ In (k', ORecv bs) (on_link None tr)) /\ forall n, known s n = None.
Proof.
  exists x_alone. eexists _, _, 15000, _. split; [apply GatewayNm.grun_exec; vm_compute; reflexivity|]. split; [vm_compute; tauto|]. split; [vm_compute; tauto|]. split; [|intros n; vm_compute; reflexivity].
  intros k' bs J. vm_compute in J. intuition discriminate.
Qed.
Print Assumptions C115_refuted.
(** a node list that arrives meanwhile, without a node that connect() is about to look up, makes connect() fail with KeyError *)
Theorem C115_gone_refuted : exists es s tr k, gexec x_ord gw0 es s tr /\ In (0, GCalled 0 GConnect) tr /\ In (k, GRet 0 (Err EKey)) tr /\
  (forall k' w e, ~ In (k', GBack 0 w (Err e)) tr) /\ exists k', In (k', GRet 1 (Ok (GV VNone))) tr.
Proof.
  exists (x_ready 48 ++ [GUnsol (x_list 16) (Some 7); x_adv 5; x_resume 4]). eexists _, _, 0. split; [apply GatewayNm.grun_exec; vm_compute; reflexivity|]. split; [vm_compute; tauto|]. split; [vm_compute; tauto|].
  split; [intros k' w e J; vm_compute in J; intuition discriminate|]. exists 0. vm_compute. tauto.
Qed.
Print Assumptions C115_gone_refuted.
(** What connect() does, in every run: the socket is opened; the mode is read, and set if it is not 1; the unsolicited port is opened; the destination is set;
    the node list is read if no node is known; the listed nodes are looked up one by one, those that have an address are skipped.  An exception of any of these
    but a missing answer to the questions for the mode and the list ends it. *)
Theorem C115_partial ord es s tr t n n' r : gexec ord gw0 es s tr -> In (n, GCalled t GConnect) tr -> In (n', GRet t r) tr ->
  exists h, own t tr = GCalled t GConnect :: h ++ [GRet t r] /\ connecting True ord t h r.
Proof. exact (GatewayConnect.connect_run ord es s tr t n n' r). Qed.
Print Assumptions C115_partial.
(** If nobody else changes the node table meanwhile ([a] is what happened before, [b] a run with the call from beginning to end), it does not fail by itself,
    and when it returns, exactly the listed nodes are known, and each has the address it had or the one that was found for it. *)
Theorem C115_table_partial ord es1 s1 a es s b t k k' r : iterates ord -> gexec ord gw0 es1 s1 a -> gexec ord s1 es s b -> undisturbed t (a ++ b) b ->
  In (k, GCalled t GConnect) b -> In (k', GRet t r) b ->
  exists h, own t b = GCalled t GConnect :: h ++ [GRet t r] /\ connecting False ord t h r /\
    forall v, r = Ok v -> exists l before hl hk, h = before ++ hl ++ hk /\ listing t hl (Ok (GV (VNodeList l))) /\ looked t (ord l) hk /\
      (hl = [] -> (exists n, known s1 n <> None) /\ forall n, In n l <-> known s1 n <> None) /\ (hl <> [] -> forall n, known s1 n = None) /\
      (forall n, known s n <> None <-> In n l) /\
      forall n, In n l -> exists ip, known s n = Some ip /\ ((truthy ip = true /\ known s1 n = Some ip) \/ In (GFound t n ip) h).
Proof. intros I. exact (GatewayConnect.connect_table ord I es1 s1 a es s b t k k' r). Qed.
Print Assumptions C115_table_partial.
(** a gateway with nodes 5 and 6 *)
Definition x_addr (n : Z) : Z := 336294682933583715844663186250927177728 + n.
Definition x_first : list gevent := x_ready 48 ++ [x_adv 5; x_resume 4; x_adv 6; x_resume 5].
Example C115_example : exists s b, gexec x_ord gw0 x_first s b /\ undisturbed 0 ([] ++ b) b /\ In (0, GCalled 0 GConnect) b /\ In (0, GRet 0 (Ok (GV VNone))) b /\
  known s 5 = Some (VIPv6 (x_addr 5)) /\ known s 6 = Some (VIPv6 (x_addr 6)) /\ known s 1 = None.
Proof.
  eexists _, _. split; [apply GatewayNm.grun_exec; vm_compute; reflexivity|]. split; [|split; [vm_compute; tauto|split; [vm_compute; tauto|split; [vm_compute; reflexivity|split; vm_compute; reflexivity]]]].
  intros k o t' k' c J T N _. exfalso. vm_compute in J. repeat (destruct J as [J|J]; [injection J as <- <-; vm_compute in T; (discriminate T || (injection T as <-; exact (N eq_refl)))|]). exact J.
Qed.
(** connecting again: the list is not asked for, the nodes are not looked up *)
Example C115_again : exists s b, gexec x_ord gw0 x_first (x_state x_first) (x_trace x_first) /\
  gexec x_ord (x_state x_first) [GCall GConnect; GEnv 1 (Ok tt); x_ack 5; x_resume 6; x_mode 1; x_resume 6; GEnv 1 (Ok tt); x_ack 6; x_resume 7] s b /\ undisturbed 1 (x_trace x_first ++ b) b /\
  In (0, GCalled 1 GConnect) b /\ In (0, GRet 1 (Ok (GV VNone))) b /\ length (own 1 b) = 8%nat.
Proof.
  eexists _, _. split; [apply GatewayNm.grun_exec; vm_compute; reflexivity|]. split; [apply GatewayNm.grun_exec; vm_compute; reflexivity|]. split; [|split; [vm_compute; tauto|split; [vm_compute; tauto|vm_compute; reflexivity]]].
  intros k o t' k' c J T N _. exfalso. vm_compute in J. repeat (destruct J as [J|J]; [injection J as <- <-; vm_compute in T; (discriminate T || (injection T as <-; exact (N eq_refl)))|]). exact J.
Qed.
