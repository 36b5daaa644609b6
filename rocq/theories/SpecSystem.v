(** Vocabulary for the parts put together: what is observed at each of them, and where a message comes from.
    Uses the event and observation types of SystemM.v but none of its functions. *)
From Coq Require Import String ZArith List Bool.
From Verif Require Import Py Schema Registry Codec Waiter Conn SpecConn Gateway SpecGateway NodeSendM NodeReq SpecNodeReq SystemM.
From Verif Require AppM SpecLoad.
Import ListNotations.
Open Scope list_scope.
Open Scope string_scope.
Open Scope list_scope.
Open Scope Z_scope.

Definition ytrace := list (Z * yobs).
Definition on_gw (tr : ytrace) : gtrace := flat_map (fun x => match x with (n, YG o) => [(n, o)] | _ => [] end) tr.
Definition on_app (tr : ytrace) : list AppM.aobs := flat_map (fun x => match x with (_, YA o) => [o] | _ => [] end) tr.
Definition on_node (i : nat) (tr : ytrace) : ntrace := flat_map (fun x => match x with (n, YN j o) => if Nat.eqb j i then [(n, o)] else [] | _ => [] end) tr.

(** asking for the address of node [n] gave [a] *)
Definition located (n a : Z) (tr : ytrace) : Prop := exists k t, In (k, YG (GFound t n (VIPv6 a))) tr.
(** [bs] is a Z/IP packet (35 2, flags, sequence number, source and destination) from end point [ep] with command [c] *)
Definition zip_from (bs : list Z) (ep : Z) (c : val) : Prop := exists f0 f1 q se de rest d, bs = 35 :: 2 :: f0 :: f1 :: q :: se :: de :: rest /\ se mod 128 = ep /\
  decode bs = Ok (VObj (CMsg m_Zip_ZipPacket) d) /\ aget "command" d = Some c.
(** the command for the node object: what is inside a Supervision.Get, anything else itself *)
Definition holds (c m : val) : Prop := if is_msg m_Supervision_Get c then getattr c "command" = m else c = m.
(** connection [l] was made for node [n], to address [a] *)
Definition linked_to (n : Z) (l : nat) (a : Z) (tr : ytrace) : Prop := exists k t, In (k, YG (GNew t l n a)) tr.
(** [m] was sent by end point [ep] of whoever has address [a], which asking for the address of node [n] gave: in a packet to the unsolicited port from that
    address, in one on a connection made for the node to that address, or it is a node advertisement on such a connection *)
Inductive sent_by (n ep : Z) (m : val) (a : Z) (tr : ytrace) : Prop :=
| SB_unsolicited k bs c : In (k, YG (GPacket bs (Some a))) tr -> located n a tr -> zip_from bs ep c -> holds c m -> sent_by n ep m a tr
| SB_link k l bs c : In (k, YG (GAt (Some l) (ORecv bs))) tr -> linked_to n l a tr -> located n a tr -> zip_from bs ep c -> holds c m -> sent_by n ep m a tr
| SB_advert k l bs : In (k, YG (GAt (Some l) (ORecv bs))) tr -> linked_to n l a tr -> located n a tr -> ep = 0 -> decode bs = Ok m -> hid m = advert -> sent_by n ep m a tr.

(** the messages the gateway announced: node, end point as it is formatted into a key (only integers occur in keys), command and flags *)
Definition key_of (ep : val) : option Z := match ep with VInt z | VU _ z => Some z | _ => None end.
Definition announced (tr : ytrace) : list (Z * option Z * val * val) := flat_map (fun x => match x with (_, YG (GTold _ n ep c f)) => [(n, key_of ep, c, f)] | _ => [] end) tr.
(** the messages the application began to handle, and those it did not *)
Definition begun (tr : ytrace) : list (Z * option Z * val * val) := flat_map (fun x => match x with (_, YA (AppM.OCalled _ (AppM.AMessage n ep c f))) => [(n, ep, c, f)] | _ => [] end) tr.
Definition waiting (s : sys) : list (Z * option Z * val * val) := map (fun x => (l_node x, key_of (l_ep x), l_cmd x, l_flags x)) (y_mail s).
(** object [i] is entered for end point [e] of node [n] after [tr] *)
Definition entered (n e : Z) (i : nat) (tr : ytrace) : Prop := SpecLoad.play (n, e) (on_app tr) None = Some i.
(** connection [l] is used by the gateway only: each call on it is one of the gateway's tasks' *)
Definition only_gateway (l : nat) (tr : gtrace) : Prop := forall n u c, In (n, GAt (Some l) (OCall u c)) tr -> exists t, In (n, GSub t (Some l) u c) tr.
