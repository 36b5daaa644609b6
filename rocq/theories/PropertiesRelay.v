(** C128: received commands are announced in the order of arrival. *)
From Coq Require Import String ZArith List Bool.
From Verif Require Import Py Schema Registry Codec Waiter Conn SpecConn Gateway SpecGateway SpecRelay ConnWitness PropertiesGateway.
From Verif Require Relay GatewayNm.
Import ListNotations.
Open Scope list_scope.
Open Scope string_scope.
Open Scope list_scope.
Open Scope Z_scope.

(** a connection announces the messages that arrive, once each and in this order, except at most one for each call that was started to wait for its id *)
Theorem C128_order es s tr : exec conn0 es s tr -> exists ps ks, relays tr ps ks /\ map fst ps = told tr.
Proof. exact (Relay.conn_order es s tr). Qed.
Print Assumptions C128_order.
(** what the gateway hands on from a node's connection are these messages, in this order *)
Theorem C128_gateway ord es s tr l : gexec ord gw0 es s tr -> exists ps ks, relays (on_link (Some l) tr) ps ks /\ map snd ps = passed l tr.
Proof. exact (Relay.gw_order ord es s tr l). Qed.
Print Assumptions C128_gateway.
(** nothing is left out if no call waits for a message *)
Theorem C128_all tr ps ks : relays tr ps ks -> (forall h, askings tr h = 0%nat) -> ks = [] /\ forall n bs m, In (n, ORecv bs) tr -> brings bs m -> exists v, In (v, m) ps /\ decode bs = Ok v.
Proof. exact (Relay.count_all tr ps ks). Qed.
Print Assumptions C128_all.
Definition x_two_of : list event := [EvConnect; x_reply; EvPacket [35; 2; 0; 64; 10; 0; 0; 32; 3; 6]; x_reply].
Example C128_case : exec conn0 x_two_of (after x_two_of) (shown x_two_of) /\ (forall h, askings (shown x_two_of) h = 0%nat) /\
  map (fun v => getattr (getattr v "command") "value") (told (shown x_two_of)) = [VI false 1 5; VI false 1 6; VI false 1 5].
Proof.
  split; [apply runs_exec; vm_compute; reflexivity|]. split; [|vm_compute; reflexivity]. intros h. vm_compute. reflexivity.
Qed.
Definition x_pass : list gevent := x_sent ++ [GConn (Some 0%nat) (EvPacket [35; 2; 0; 80; 10; 0; 0; 95; 3; 2])].
Example C128_case_gateway : exists s, gexec x_ord gw0 x_pass s (x_trace x_pass) /\ map (fun m => getattr m "mode") (passed 0 (x_trace x_pass)) = [VI false 1 1; VI false 1 2].
Proof. eexists. split; [apply GatewayNm.grun_exec; vm_compute; reflexivity|]. vm_compute. reflexivity. Qed.
(** a call that waits keeps one of two messages *)
Definition x_keep : list event := [EvConnect; x_wait 1000; x_reply; EvPacket [35; 2; 0; 64; 10; 0; 0; 32; 3; 6]].
Example C128_case_kept : exec conn0 x_keep (after x_keep) (shown x_keep) /\ askings (shown x_keep) x_hid = 1%nat /\ map (fun v => getattr (getattr v "command") "value") (told (shown x_keep)) = [VI false 1 6].
Proof. split; [apply runs_exec; vm_compute; reflexivity|]. split; vm_compute; reflexivity. Qed.
