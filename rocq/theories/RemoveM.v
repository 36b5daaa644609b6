(** node.py l.221-235 Node.remove and Node.rootNodeId over the gateway (Gateway.v). *)
From Coq Require Import String ZArith List Bool.
From Verif Require Import Py Schema Registry Codec Waiter Conn Gateway.
Import ListNotations.
Open Scope Z_scope.

(** node.py l.226: [self.adapter.removeFailedNode(self.rootNodeId)]; an end point has its parent's root id (node.py l.307) *)
Definition remove_call (nodeId endpoint : Z) : gcall := GNm (NmRemoveFailed nodeId).
(** node.py l.227-230: the comparison with Status.DONE, which is 1 (NetworkManagementInclusion.py l.62-67) *)
Definition remove_result (r : res gval) : res bool :=
  match r with
  | Ok (GV v) => py_eq v (VInt 1)
  | Ok _ => Err EUnmodelled
  | Err e => Err e
  end.
