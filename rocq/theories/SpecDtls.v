(** What a user sees of a DTLS connection object (DtlsM.v), said with the trace of observations only. *)
From Coq Require Import ZArith List Bool.
From Verif Require Import Py DtlsM.
Import ListNotations.
Open Scope Z_scope.

(** the packets read, with the arguments a callback should get: the sender's address for a server only *)
Definition reads (tr : list (Z * dobs)) : list (list Z * option Z) :=
  flat_map (fun x => match snd x with YRead sv p a => [(p, if sv then Some a else None)] | _ => [] end) tr.
(** the calls of callbacks *)
Definition delivered (tr : list (Z * dobs)) : list (nat * list Z * option Z) :=
  flat_map (fun x => match snd x with YDeliver cb p a => [(cb, p, a)] | _ => [] end) tr.
(** the callback registered after [tr] *)
Fixpoint registered (cb : option nat) (tr : list (Z * dobs)) : option nat :=
  match tr with
  | [] => cb
  | (_, YSet cb') :: tr' => registered cb' tr'
  | _ :: tr' => registered cb tr'
  end.
(** [k] is the callback when a packet is read, and stays the callback *)
Definition steady (k : nat) (tr : list (Z * dobs)) : Prop :=
  forall a n sv p ad b, tr = a ++ (n, YRead sv p ad) :: b -> registered None a = Some k /\ forall m cb, ~ In (m, YSet cb) b.
(** [o] is seen in [tr], at some time *)
Definition seen (o : dobs) (tr : list (Z * dobs)) : Prop := exists n, In (n, o) tr.
(** nothing but the two threads going on *)
Definition going_on (es : list devent) : Prop := forall e, In e es -> e = DThread \/ e = DLoop.
(** [a] is [b] with some elements left out *)
Inductive subseq {A} : list A -> list A -> Prop :=
| sub_nil : subseq [] []
| sub_skip x a b : subseq a b -> subseq a (x :: b)
| sub_keep x a b : subseq a b -> subseq (x :: a) (x :: b).
(** there is a socket (a client has done its handshake) *)
Definition opened (tr : list (Z * dobs)) : Prop := exists sv, seen (YOpened sv) tr.
