(** Vocabulary for node properties. *)
From Coq Require Import String ZArith List Bool.
From Verif Require Import Py Schema Codec Waiter Listen NodeM.
Import ListNotations.
Open Scope list_scope.
Open Scope string_scope.
Open Scope list_scope.
Open Scope Z_scope.

(** ** Node information frames: a sequence of S0 marks (F1 00), control marks (EF) and command classes *)
Inductive token := TkS0 | TkControl | TkClass (c : Z).
Inductive reads : list Z -> list token -> Prop :=
| Rd_nil : reads [] []
| Rd_s0 l ts : reads l ts -> reads (241 :: 0 :: l) (TkS0 :: ts)
| Rd_control l ts : reads l ts -> reads (239 :: l) (TkControl :: ts)
| Rd_class c l ts : c <> 239 -> (c = 241 -> exists c' l', l = c' :: l' /\ c' <> 0) -> reads l ts -> reads (c :: l) (TkClass c :: ts).
(** after [a] the list of supported classes goes on: no control mark, or an S0 mark after it *)
Definition supporting (a : list token) : Prop := forall x y, a = x ++ TkControl :: y -> In TkS0 y.
(** [c] is listed after [a] for the last time in a part where [part] holds *)
Definition last_listed (part : list token -> Prop) (c : Z) (a ts : list token) : Prop :=
  exists b, ts = a ++ TkClass c :: b /\ part a /\ forall x y, b = x ++ TkClass c :: y -> ~ part (a ++ TkClass c :: x).

(** ** Listeners *)
Definition says_yes (l : reaction) : Prop := l = Answers (Ok true) \/ l = Later (Ok true).
(** coroutines that raise; exceptions of plain methods are caught *)
Definition raises (l : reaction) : Prop := exists e, l = Later (Err e).
Definition calls_now (l : reaction) : bool := match l with Answers _ => true | _ => false end.
Definition calls_later (l : reaction) : bool := match l with Later _ => true | _ => false end.
(** the positions of a kind of listener, ascending *)
Definition positions (p : reaction -> bool) (ls : list reaction) : list nat :=
  filter (fun i => match nth_error ls i with Some l => p l | None => false end) (seq 0 (length ls)).

(** ** Message routing *)
(** a caller waits for messages with the id of [m] *)
Definition awaited (m : val) (w : waiter) : Prop := exists f, dget Z.eqb (hid m) (w_sess w) = Some f /\ nth_error (w_futs w) f = Some FPending.
Definition named (m : val) : Prop := exists s d, m = VObj (CMsg s) d /\ s_NAME s <> "".
(** the command class of [m] handles it: its own handler or, if that does not, one of its listeners *)
Definition class_takes (m : val) (r : reacts) : Prop := named m /\ (r_handler r = Some (Ok true) \/ (exists l, In l (r_listeners r) /\ says_yes l)).
(** nobody raises *)
Definition class_quiet (r : reacts) : Prop := (forall e, r_handler r <> Some (Err e)) /\ forall l, In l (r_listeners r) -> ~ raises l.

(** ** Storage lock *)
(** after [a] a lock is held, if locks do not overlap *)
Definition held (a : list lock_event) : Prop := exists x y, a = x ++ Lock :: y /\ ~ In Unlock y.
Definition no_overlap (es : list lock_event) : Prop := forall a b, (es = a ++ Lock :: b -> ~ held a) /\ (es = a ++ Unlock :: b -> held a).
(** something was updated since the lock was taken *)
Definition dirty (a : list lock_event) : Prop := exists x y, a = x ++ Update :: y /\ ~ In Lock y.
(** the number of notifications at position [i] *)
Definition notices (es : list lock_event) (a : list lock_event) (n : nat) : Prop := nth_error (lock_run Clean es) (length a) = Some n.
