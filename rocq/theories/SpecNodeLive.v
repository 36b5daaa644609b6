(** Vocabulary for requests of a node that are not forgotten: as SpecLive.v, for NodeReq.v. *)
From Coq Require Import ZArith List Bool.
From Verif Require Import Py Schema Codec Waiter Conn NodeReq SpecNodeReq.
Import ListNotations.
Open Scope list_scope.
Open Scope Z_scope.

(** request [t] began and has not ended *)
Definition nrunning (tr : ntrace) (t : nat) : Prop := (exists n c, In (n, NCall t c) tr) /\ forall n r, ~ In (n, NRet t r) tr.
(** its steps: its timer fires, its coroutine is resumed *)
Definition nown (t : nat) (e : nevent) : bool := match e with NEvTimer u | NEvResume u => Nat.eqb u t | _ => false end.
Definition ncount (p : nevent -> bool) (es : list nevent) : nat := length (filter p es).
Definition npossible (s : nstate) (t : nat) : Prop := nstep s (NEvTimer t) <> None \/ nstep s (NEvResume t) <> None.
(** how long it waits for the answer *)
Definition patience (c : ncall) : Z := match c with NReq _ tmo | NWait _ tmo => Z.max 0 tmo end.
(** the moment [T] from which request [t] waits: its command was acknowledged, or it has no command *)
Definition waits_from (tr : ntrace) (T : Z) (t : nat) (c : ncall) : Prop :=
  match c with NReq _ _ => In (T, NSent t (Ok true)) tr | NWait _ _ => In (T, NCall t c) tr end.

(** Prompt runs: the clock does not move past a moment at which some request can take a step *)
Definition nlater (d : Z) (s : nstate) : nstate := mkN (n_now s + d) (n_w s) (n_tasks s).
Inductive nprompt (s0 : nstate) : list nevent -> nstate -> ntrace -> Prop :=
| NR_nil : nprompt s0 [] s0 []
| NR_snoc es s tr e s' os : nprompt s0 es s tr -> nstep s e = Some (s', os) ->
    (forall dt d t, e = NEvAdvance dt -> 0 <= d < dt -> ~ npossible (nlater d s) t) ->
    nprompt s0 (es ++ [e]) s' (tr ++ nstamp (n_now s) os).
