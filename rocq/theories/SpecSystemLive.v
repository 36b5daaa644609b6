(** Vocabulary for requests of node objects that are not forgotten: as SpecGatewayLive.v and SpecNodeLive.v, for the parts put together. *)
From Coq Require Import String ZArith List Bool.
From Verif Require Import Py Schema Registry Codec Waiter Conn SpecConn SpecLive Gateway SpecGateway SpecGatewayLive NodeReq SpecNodeReq SpecNodeLive SystemM SpecSystem.
Import ListNotations.
Open Scope list_scope.
Open Scope Z_scope.

(** request [u] of object [i] has not ended *)
Definition unanswered (tr : ytrace) (i u : nat) : Prop := forall n r, ~ In (n, YN i (NRet u r)) tr.
(** what it needs, its command being sent by task [t] of the gateway: time, what that task needs, and its own timer and wake ups; no message of any
    node, no other request, nothing of the application *)
Definition aids (i u t : nat) (tr : ytrace) (e : yevent) : Prop :=
  match e with
  | YAdvance _ => True
  | YGw ge => helps t (on_gw tr) ge
  | YNode j ne => j = i /\ nown u ne = true
  | _ => False
  end.
(** sockets are opened or fail to as [net] has it: [net j] for the j-th event *)
Definition yanswers (net : nat -> res unit) (es : list yevent) : Prop := forall j t r, nth_error es j = Some (YGw (GEnv t r)) -> r = net j.
(** the extensions task [t] of the gateway was granted, in milliseconds: those of every call it makes on a connection, the other side having said that it
    needs so many more seconds *)
Definition extra (tr : trace) (v : nat) : Z := fold_right (fun x a => (match snd x with ORearm w d => if Nat.eqb w v then Z.max 0 (1000 * d) else 0 | _ => 0 end) + a) 0 tr.
Definition granted (tr : gtrace) (t : nat) : Z :=
  fold_right (fun x a => (match snd x with GSub t' l v _ => if Nat.eqb t' t then extra (on_link l tr) v else 0 | _ => 0 end) + a) 0 tr.

(** Prompt runs: the clock does not move past a moment at which a call on some connection or a request of some object can take a step, and sockets are
    opened (or fail to) at once.  Messages may wait to be handled for as long as it takes. *)
Inductive prompt_yexec (ord : list Z -> list Z) (s0 : sys) : list yevent -> sys -> ytrace -> Prop :=
| YR_nil : prompt_yexec ord s0 [] s0 []
| YR_snoc es s tr e s' os : prompt_yexec ord s0 es s tr -> ystep ord s e = Some (s', os) ->
    (forall dt, e = YAdvance dt ->
       (forall d l k u, 0 <= d < dt -> conn_at l (g_d (y_g s)) = Some k -> ~ possible (later d k) u) /\
       (0 < dt -> forall t r, gstep ord (y_g s) (GEnv t r) = None) /\
       (forall d i u, 0 <= d < dt -> ~ npossible (nlater d (y_n s i)) u)) ->
    prompt_yexec ord s0 (es ++ [e]) s' (tr ++ ystamp (y_now s) os).
