(** Vocabulary for interviews that end. *)
From Coq Require Import ZArith List Bool.
From Verif Require Import Py Schema Codec Conn NodeReq SpecNodeLive NodeM CmdClass AssocM SpecAssoc.
Import ListNotations.
Open Scope list_scope.
Open Scope Z_scope.

(** the interview in task [t] began and has not ended *)
Definition popen (tr : ptrace) (t : nat) : Prop := (exists n c, In (n, POCall t c) tr) /\ forall n r, ~ In (n, PODone t r) tr.
(** request [u] was made by task [t] *)
Definition by_task (tr : ptrace) (t u : nat) : Prop := exists n q, In (n, POAsk t u q) tr.
(** time passes, or something happens to a request or a command of task [t]: sending it ends, its timer fires, it is resumed *)
Definition helps (t : nat) (tr : ptrace) (e : pevent) : Prop :=
  match e with
  | PNet (NEvAdvance _) => True
  | PNet (NEvSent u _) | PNet (NEvTimer u) | PNet (NEvResume u) => by_task tr t u
  | PSent t' _ => t' = t
  | _ => False
  end.
(** how sending ends is up to the network: the [i]th event, if it is the end of sending something, ends it with [net i] *)
Definition outcome (net : nat -> res bool) (es : list pevent) : Prop :=
  forall i e r, nth_error es i = Some e -> (exists u, e = PNet (NEvSent u r) \/ e = PSent u r) -> r = net i.

(** Timely runs: the clock does not move past a moment at which some request can take a step, and sending takes no longer than [D] *)
Inductive timely (D : Z) (s0 : pstate) : list pevent -> pstate -> ptrace -> Prop :=
| TI_nil : timely D s0 [] s0 []
| TI_snoc es s tr e s' os : timely D s0 es s tr -> pstep s e = Some (s', os) ->
    (forall dt, e = PNet (NEvAdvance dt) ->
       (forall d u, 0 <= d < dt -> ~ npossible (nlater d (p_net s)) u) /\
       (forall n t u q, In (n, POAsk t u q) tr -> (forall m r, ~ In (m, PONet (NSent u r)) tr) -> (forall m r, ~ In (m, PONet (NRet u r)) tr) -> n_now (p_net s) + dt <= n + D) /\
       (forall n t q, In (n, POSend t q) tr -> (forall m r, ~ In (m, POSent t r) tr) -> n_now (p_net s) + dt <= n + D)) ->
    timely D s0 (es ++ [e]) s' (tr ++ pstamp (n_now (p_net s)) os).
(** how long task [t] may take: for each question [D] and three seconds, for each command [D] *)
Definition allowed (D : Z) (t : nat) (tr : ptrace) : Z := Z.of_nat (length (questions t tr)) * (D + 3000) + Z.of_nat (length (sends t tr)) * D.
