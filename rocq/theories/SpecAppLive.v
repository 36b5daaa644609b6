(** Vocabulary for C119: what a task of the application waits for, and runs in which it is answered. *)
From Coq Require Import String ZArith List Bool.
From Verif Require Import Py Schema Registry Codec NodeM AppM.
Import ListNotations.
Open Scope list_scope.
Open Scope string_scope.
Open Scope list_scope.
Open Scope Z_scope.

(** task [t] asks the adapter, its listeners or a node object *)
Definition question (t : nat) (o : aobs) : bool :=
  match o with OQuery t' _ | OTell t' _ | OHandle t' _ _ _ => Nat.eqb t' t | _ => false end.
Definition over (t : nat) (tr : list aobs) : Prop := exists r, In (ODone t r) tr.
(** [o] is the last question of [t], and [t] has not ended *)
Definition waits_for (t : nat) (tr : list aobs) (o : aobs) : Prop :=
  ~ over t tr /\ exists a b, tr = a ++ o :: b /\ question t o = true /\ forall o', In o' b -> question t o' = false.
(** the answer is one to that question: its type is the one adapter.py, listener.py and node.py return *)
Definition suits (o : aobs) (a : answer) : Prop :=
  match o, a with
  | OQuery _ QNodes, ANodes _ | OQuery _ QFailed, ANodes _ | OQuery _ (QInfo _), AInfo _ _ _ _ _ | OQuery _ (QCount _), ACount _ | OQuery _ (QCap _ _), ACap _ _ _
  | OTell _ _, ATold _ | OHandle _ _ _ _, AHandled _ => True
  | _, _ => False
  end.
(** a run without end, in pieces; a piece may be empty *)
Definition runs (f : nat -> app) (es : nat -> list aevent) (os : nat -> list aobs) : Prop := forall n, aexec (f n) (es n) (f (S n)) (os n).
Definition until (os : nat -> list aobs) (n : nat) : list aobs := flat_map os (seq 0 n).
(** as long as [t] has not ended, some await of it ends later, with a value or an exception *)
Definition served (t : nat) (tr : list aobs) (es : nat -> list aevent) (os : nat -> list aobs) : Prop :=
  forall n, ~ over t (tr ++ until os n) -> exists m r, (n <= m)%nat /\ In (EAnswer t r) (es m).
