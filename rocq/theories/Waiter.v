(** util.py l.165-203 MessageWaiter: futures waiting for a message id.
    asyncio futures are entries of a growing list; [asyncio.wait_for] is described in Conn.v. *)
From Coq Require Import ZArith List Bool.
From Verif Require Import Py Schema Codec.
Import ListNotations.
Open Scope Z_scope.

(** an asyncio.Future *)
Inductive fut := FPending | FDone (v : val) | FCancelled.
(** [_sessions] maps a message id to (the index of) a future; [w_futs] are all futures ever created *)
Record waiter := mkW { w_sess : list (Z * nat); w_futs : list fut }.
Definition waiter0 : waiter := mkW [] [].          (* l.168-170 __init__ *)

(** replace entry [i] *)
Fixpoint upd {A} (i : nat) (x : A) (l : list A) : list A :=
  match l, i with
  | [], _ => []
  | _ :: l', O => x :: l'
  | y :: l', S i' => y :: upd i' x l'
  end.

Definition set_fut (f : nat) (x : fut) (w : waiter) : waiter := mkW (w_sess w) (upd f x (w_futs w)).
Definition pop_sess (h : Z) (w : waiter) : waiter := mkW (ddel Z.eqb h (w_sess w)) (w_futs w).

(** l.172-182 addWaitingSession *)
Definition add_session (h : Z) (w : waiter) : nat * waiter :=
  match dget Z.eqb h (w_sess w) with
  | Some f => (f, w)
  | None => let f := length (w_futs w) in (f, mkW (dset Z.eqb h f (w_sess w)) (w_futs w ++ [FPending]))
  end.

(** l.184-190 messageReceived.  [None.hid()] is an AttributeError; [set_result] on a future that is
    already done or cancelled is an InvalidStateError, raised after the session was popped. *)
Definition message_received (m : val) (w : waiter) : waiter * res bool :=
  match m with
  | VObj _ _ =>
      let h := hid m in
      match dget Z.eqb h (w_sess w) with
      | None => (w, Ok false)
      | Some f =>
          let w1 := pop_sess h w in
          match nth_error (w_futs w) f with
          | Some FPending => (set_fut f (FDone m) w1, Ok true)
          | _ => (w1, Err EInvalidState)
          end
      end
  | _ => (w, Err EAttribute)
  end.

(** [fut.cancel()]: only a pending future is cancelled *)
Definition cancel_fut (f : nat) (w : waiter) : waiter :=
  match nth_error (w_futs w) f with Some FPending => set_fut f FCancelled w | _ => w end.
