(** Vocabulary for C121: what the node objects of the application show. *)
From Coq Require Import String ZArith List Bool.
From Verif Require Import Py Schema Registry Codec Waiter Conn NodeM AppM SpecApp.
Import ListNotations.
Open Scope list_scope.
Open Scope string_scope.
Open Scope list_scope.
Open Scope Z_scope.

(** an answer from which no object can be made: its class list is cut short *)
Definition useless (a : answer) : Prop := match a with AInfo cls _ _ _ _ | ACap cls _ _ => exists e, new_node cls = Err e | _ => True end.
(** answer [a] to question [q] is the last one of use in [tr]; [t] received it after [x] and stored object [i] under [k] for it, which was not replaced or removed since *)
Definition last_put (tr x : list aobs) (t : nat) (q : query) (a : answer) (k : key) (i : nat) : Prop :=
  exists y, tr = x ++ OAnswer t q a :: OPut t k i :: y /\ (forall t' a', In (OAnswer t' q a') y -> useless a') /\ (forall t' j, ~ In (OPut t' k j) y) /\ (forall t', ~ In (ODel t' k) y).
(** what an object shows as basic device class and as listening: node.py l.308-340, an end point passes on what its parent shows *)
Definition shown {A} (f : nobj -> A) (s : app) (o : nobj) : option A :=
  match o_parent o with None => Some (f o) | Some p => match nth_error (a_objs s) p with Some r => Some (f r) | None => None end end.
(** the end points of a node show what the node shows *)
Definition alike (s : app) : Prop := forall n e o r, object s (n, e) = Some o -> object s (n, 0) = Some r -> shown o_listening s o = shown o_listening s r /\ shown o_basic s o = shown o_basic s r.
