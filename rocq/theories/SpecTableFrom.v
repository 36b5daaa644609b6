(** Vocabulary for C126: where the entries of the gateway's node table come from. *)
From Coq Require Import String ZArith List Bool.
From Verif Require Import Py Schema Registry Codec Waiter Conn SpecConn Gateway SpecGateway.
Import ListNotations.
Open Scope list_scope.
Open Scope string_scope.
Open Scope list_scope.
Open Scope Z_scope.

(** a node list report: class 82, command 2 *)
Definition list_report (rep : val) : Prop := hid rep = 82 * 256 + 2 \/ exists c d, rep = VObj (CMsg c) d /\ s_name c = "NetworkManagementProxy.NodeListReport".
(** message [rep] was received: on the unsolicited socket, or on the connection to the gateway *)
Definition arrived (tr : gtrace) (rep : val) : Prop :=
  (exists k bs a m, In (k, GPacket bs (Some a)) tr /\ decode bs = Ok m /\ rep = getattr m "command") \/
  (exists k bs, In (k, ORecv bs) (on_link None tr) /\ brings bs rep).
(** a report that was received names node [n] *)
Definition named (tr : gtrace) (n : Z) : Prop := exists rep l, arrived tr rep /\ list_report rep /\ getattr rep "nodes" = VNodeList l /\ In n l.
(** a look up found address [v] for node [n] *)
Definition looked_up (tr : gtrace) (n : Z) (v : val) : Prop := exists k t, In (k, GFound t n v) tr.
(** [bs] is a node list report of exactly [l] *)
Definition tells (bs : list Z) (l : list Z) : Prop := exists m, decode bs = Ok m /\ list_report (getattr m "command") /\ getattr (getattr m "command") "nodes" = VNodeList l.
