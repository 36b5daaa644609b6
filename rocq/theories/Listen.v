(** util.py l.123-162 Listenable: who is called when an event is announced. *)
From Coq Require Import ZArith List Bool.
From Verif Require Import Py.
Import ListNotations.
Open Scope Z_scope.

(** What a registered listener does with the announced event.  The result of a listener is only ever tested for
    truth, so it is a boolean here. *)
Inductive reaction :=
| Ignores                     (* l.149-151: no such method *)
| Answers (r : res bool)      (* plain method: returns or raises *)
| Later (r : res bool).       (* coroutine: started by the event loop, returns or raises later *)

(** l.141-162 speak.  [called]: listeners called before speak returns, in order; [started]: listeners whose task was created, in
    order (the loop starts tasks in the order of their creation); [futures]: the outcomes of the returned futures, in order.
    [i] is the index of the first listener.  BaseExceptions that are no Exceptions are not modelled, and listeners do not change
    the list of listeners. *)
Record spoken := mkSpoken { called : list nat; started : list nat; futures : list (res bool) }.
Fixpoint speak (i : nat) (ls : list reaction) : spoken :=
  match ls with
  | [] => mkSpoken [] [] []
  | l :: ls' =>
      let s := speak (S i) ls' in
      match l with
      | Ignores => s
      | Later r => mkSpoken (called s) (i :: started s) (r :: futures s)                   (* l.152-155 *)
      | Answers (Ok b) => mkSpoken (i :: called s) (started s) (Ok b :: futures s)         (* l.156-159 *)
      | Answers (Err _) => mkSpoken (i :: called s) (started s) (futures s)                (* l.160-161 *)
      end
  end.

(** l.134-139 ask = asyncio.gather of the futures.  If several coroutines raise, gather raises the first exception in time;
    the model takes the first in registration order. *)
Fixpoint gather (l : list (res bool)) : res (list bool) :=
  match l with
  | [] => Ok []
  | Ok b :: l' => match gather l' with Ok bs => Ok (b :: bs) | Err e => Err e end
  | Err e :: _ => Err e
  end.
Definition ask (ls : list reaction) : res (list bool) := gather (futures (speak 0 ls)).
