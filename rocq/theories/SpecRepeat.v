(** Vocabulary for C125: repeated packets on the unsolicited socket. *)
From Coq Require Import String ZArith List Bool.
From Verif Require Import Py Schema Registry Codec Waiter Conn SpecConn Gateway SpecGateway.
Import ListNotations.
Open Scope list_scope.
Open Scope string_scope.
Open Scope list_scope.
Open Scope Z_scope.

(** what follows a packet begins with its command being handed on, after an acknowledgement if one was asked for *)
Definition acted_on (c : list (Z * gobs)) : Prop :=
  exists k n ep cmd fl c', c = (k, GTold None n ep cmd fl) :: c' \/ exists rs a, c = (k, GReply rs a) :: (k, GTold None n ep cmd fl) :: c'.
(** the same packet, with the same sequence number and from the same address, received again within two seconds is not acted on again *)
Definition repeats_ignored (tr : list (Z * gobs)) : Prop :=
  forall x k1 bs a y k2 z, tr = x ++ (k1, GPacket bs (Some a)) :: y ++ (k2, GPacket bs (Some a)) :: z -> k2 <= k1 + 2000 -> acted_on (y ++ (k2, GPacket bs (Some a)) :: z) -> ~ acted_on z.
