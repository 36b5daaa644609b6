(** node.py l.237-241 Node.send over the gateway (Gateway.v). *)
From Coq Require Import String ZArith List Bool.
From Verif Require Import Py Schema Registry Codec Waiter Conn Gateway.
Import ListNotations.
Open Scope Z_scope.

(** node.py l.239-241: [self._adapter.sendToNode(self._nodeId, cmd, sourceEP=0, destEP=self._endpoint, timeout=timeout)]; the time out is in milliseconds here *)
Definition send_call (nodeId endpoint : Z) (cmd : val) (tmo : Z) : gcall := GSendTo nodeId cmd 0 endpoint tmo.
(** node.py l.239: what sendToNode returned is returned *)
Definition send_result (r : res gval) : res val :=
  match r with
  | Ok (GV v) => Ok v
  | Ok _ => Err EUnmodelled
  | Err e => Err e
  end.
