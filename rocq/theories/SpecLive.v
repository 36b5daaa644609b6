(** Vocabulary for calls that are not forgotten: steps of a call, how long it may take, and runs of an event loop that does
    not fall behind. *)
From Coq Require Import String ZArith List Bool.
From Verif Require Import Py Schema Registry Codec Waiter Conn SpecConn.
Import ListNotations.
Open Scope list_scope.
Open Scope Z_scope.

(** call [t] began and has not ended *)
Definition running (tr : trace) (t : nat) : Prop := (exists n c, In (n, OCall t c) tr) /\ forall n r, ~ In (n, ORet t r) tr.
(** the steps of call [t]: its timer fires, its coroutine is resumed *)
Definition own (t : nat) (e : event) : bool := match e with EvTimer u | EvResume u => Nat.eqb u t | _ => false end.
Definition is_packet (e : event) : bool := match e with EvPacket _ => true | _ => false end.
Definition count (p : event -> bool) (es : list event) : nat := length (filter p es).
(** call [t] can take a step *)
Definition possible (s : conn) (t : nat) : Prop := step s (EvTimer t) <> None \/ step s (EvResume t) <> None.

(** the time a call may take, in milliseconds: its time outs and every extension it was granted *)
Definition share (t : nat) (o : obs) : Z :=
  match o with
  | OCall u c => if Nat.eqb u t then (if sending c then Z.max 0 (send_timeout c) else 0) + Z.max 0 (reply_timeout c) else 0
  | ORearm u d => if Nat.eqb u t then Z.max 0 (1000 * d) else 0
  | _ => 0
  end.
Definition allowance (tr : trace) (t : nat) : Z := fold_right (fun x a => share t (snd x) + a) 0 tr.

(** Prompt runs: the clock does not move past a moment at which some call can take a step *)
Definition later (d : Z) (s : conn) : conn := mkC (c_now s + d) (c_up s) (c_ka s) (c_seq s) (c_ackq s) (c_acks s) (c_w s) (c_tasks s).
Inductive prompt_exec (s0 : conn) : list event -> conn -> trace -> Prop :=
| R_nil : prompt_exec s0 [] s0 []
| R_snoc es s tr e s' os : prompt_exec s0 es s tr -> step s e = Some (s', os) ->
    (forall dt d t, e = EvAdvance dt -> 0 <= d < dt -> ~ possible (later d s) t) ->
    prompt_exec s0 (es ++ [e]) s' (tr ++ stamp (c_now s) os).
