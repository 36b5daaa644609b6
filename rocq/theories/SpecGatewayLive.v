(** Vocabulary for gateway calls that are not forgotten: the events a call needs to go on. *)
From Coq Require Import String ZArith List Bool.
From Verif Require Import Py Schema Registry Codec Waiter Conn SpecConn SpecLive Gateway SpecGateway.
Import ListNotations.
Open Scope list_scope.
Open Scope Z_scope.

(** the call made by task [t] began and has not ended *)
Definition open_task (tr : gtrace) (t : nat) : Prop := (exists n c, In (n, GCalled t c) tr) /\ forall n r, ~ In (n, GRet t r) tr.
(** task [t] made call [u] on connection [l] *)
Definition made (tr : gtrace) (t : nat) (l : option nat) (u : nat) : Prop := exists n c, In (n, GSub t l u c) tr.
(** what task [t] needs: time, its sockets being opened (or not), and timers and wake ups of calls it made itself; no message of
    any node, no other task *)
Definition helps (t : nat) (tr : gtrace) (e : gevent) : Prop :=
  match e with
  | GAdvance _ => True
  | GEnv t' _ => t' = t
  | GConn l (EvTimer u) | GConn l (EvResume u) => made tr t l u
  | _ => False
  end.
(** sockets are opened or fail to as [net] has it: [net i] for the i-th event *)
Definition answers (net : nat -> res unit) (es : list gevent) : Prop := forall i t r, nth_error es i = Some (GEnv t r) -> r = net i.

(** Prompt runs: the clock does not move past a moment at which a call on some connection can take a step, and sockets are opened
    (or fail to) at once *)
Inductive prompt_gexec (ord : list Z -> list Z) (s0 : gw) : list gevent -> gw -> gtrace -> Prop :=
| GR_nil : prompt_gexec ord s0 [] s0 []
| GR_snoc es s tr e s' os : prompt_gexec ord s0 es s tr -> gstep ord s e = Some (s', os) ->
    (forall dt, e = GAdvance dt ->
       (forall d l k u, 0 <= d < dt -> conn_at l (g_d s) = Some k -> ~ possible (later d k) u) /\
       (0 < dt -> forall t r, gstep ord s (GEnv t r) = None)) ->
    prompt_gexec ord s0 (es ++ [e]) s' (tr ++ gstamp (g_now s) os).
(** the time the calls task [t] made on connections may take, in milliseconds *)
Definition part (tr : gtrace) (t : nat) (o : gobs) : Z := match o with GSub t' l u _ => if Nat.eqb t' t then allowance (on_link l tr) u else 0 | _ => 0 end.
Definition total (tr : gtrace) (t : nat) : Z := fold_right (fun x a => part tr t (snd x) + a) 0 tr.
