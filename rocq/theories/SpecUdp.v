(** What a user sees of a UDP connection object (UdpM.v), said with the trace of observations only. *)
From Coq Require Import ZArith List Bool.
From Verif Require Import Py UdpM.
Import ListNotations.
Open Scope Z_scope.

(** the callback calls of a trace *)
Definition calls (tr : list uobs) : list (nat * list Z * option Z) :=
  flat_map (fun o => match o with BCall cb bs f => [(cb, bs, f)] | _ => [] end) tr.
(** the calls the arrived datagrams should cause: the callback of the moment, the sender only for sockets made to listen *)
Fixpoint due (cb : option nat) (listening : nat -> bool) (tr : list uobs) : list (nat * list Z * option Z) :=
  match tr with
  | [] => []
  | BSet cb' :: tr' => due cb' listening tr'
  | BMade _ e sv :: tr' => due cb (fun e' => if Nat.eqb e' e then sv else listening e') tr'
  | BArrived e bs from :: tr' =>
      match cb with
      | Some c => [(c, bs, if listening e then Some from else None)]
      | None => []
      end ++ due cb listening tr'
  | _ :: tr' => due cb listening tr'
  end.
(** the object is used in one way only *)
Definition one_role (vs : list uevent) : Prop := ~ (In UConnect vs /\ In UListen vs).
(** the endpoint of the coroutine that returned last *)
Fixpoint latest (tr : list uobs) (e : option nat) : option nat :=
  match tr with
  | [] => e
  | BReady _ e' :: tr' => latest tr' (Some e')
  | _ :: tr' => latest tr' e
  end.
(** nobody closed endpoint [e] and it was not lost *)
Definition alive (e : nat) (tr : list uobs) : Prop := ~ In (BClose e) tr /\ ~ In (BLost e) tr.
(** at most one connect or listen *)
Definition opened_once (vs : list uevent) : Prop :=
  (length (filter (fun v => match v with UConnect | UListen => true | _ => false end) vs) <= 1)%nat.
