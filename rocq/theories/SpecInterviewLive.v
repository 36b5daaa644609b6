(** Vocabulary for interviews of nodes that end. *)
From Coq Require Import ZArith List Bool.
From Verif Require Import Py Schema Codec Conn NodeReq SpecNodeLive InterviewM SpecInterview.
Import ListNotations.
Open Scope list_scope.
Open Scope Z_scope.

(** the interview in task [t] began and has not ended *)
Definition iopen (tr : itrace) (t : nat) : Prop := (exists n c, In (n, OCall t c) tr) /\ forall n r, ~ In (n, ODone t r) tr.
(** what task [t] asked, and the interviews of classes left to the environment it began *)
Definition asked (t : nat) (tr : itrace) : list val := flat_map (fun x => match x with (_, OAsk t' _ q) => if Nat.eqb t' t then [q] else [] | _ => [] end) tr.
Definition begun (t : nat) (tr : itrace) : list Z := flat_map (fun x => match x with (_, OOwn t' id) => if Nat.eqb t' t then [id] else [] | _ => [] end) tr.
(** time passes, or something happens to a request of task [t] or to the interview it began: sending ends, the timer fires, it is resumed, the interview ends *)
Definition helps (t : nat) (tr : itrace) (e : ievent) : Prop :=
  match e with
  | INet (NEvAdvance _) => True
  | INet (NEvSent u _) | INet (NEvTimer u) | INet (NEvResume u) => exists n q, In (n, OAsk t u q) tr
  | IOwn t' _ => t' = t
  | _ => False
  end.
(** how sending and the interviews of classes left to the environment end is not up to us: the [i]th event, if it is such an end, is with [net i] or [own i] *)
Definition outcome (net : nat -> res bool) (own : nat -> res (option bool)) (es : list ievent) : Prop :=
  forall i e, nth_error es i = Some e -> match e with INet (NEvSent _ r) => r = net i | IOwn _ r => r = own i | _ => True end.

(** how many questions are due for a list of classes: one for the version of each, and one for each class with a question of its own; and how many other interviews *)
Definition questions (ids : list Z) : nat := length ids + length (filter (fun id => match own_of id with Asks _ => true | _ => false end) ids).
Definition others (ids : list Z) : nat := length (filter (fun id => match own_of id with Itself => true | _ => false end) ids).
(** at most that many for each call *)
Definition due_questions (ids : list Z) (c : icall) : nat := match c with CNode => questions ids | CClass id => questions [id] | CVersion _ => 1 end.
Definition due_others (ids : list Z) (c : icall) : nat := match c with CNode => others ids | CClass id => others [id] | CVersion _ => 0 end.

(** something task [t] does *)
Definition does (t : nat) (o : iobs) : Prop := match o with OCall t' _ | OVisit t' _ | OAsk t' _ _ | OOwn t' _ | ODone t' _ => t' = t | _ => False end.
(** Timely runs: the clock does not move past a moment at which some request can take a step, sending takes no longer than [D], and the interviews left to
    the environment take no longer than [E] *)
Inductive timely (D E : Z) (s0 : istate) : list ievent -> istate -> itrace -> Prop :=
| TI_nil : timely D E s0 [] s0 []
| TI_snoc es s tr e s' os : timely D E s0 es s tr -> istep s e = Some (s', os) ->
    (forall dt, e = INet (NEvAdvance dt) ->
       (forall d u, 0 <= d < dt -> ~ npossible (nlater d (i_net s)) u) /\
       (forall n t u q, In (n, OAsk t u q) tr -> (forall m r, ~ In (m, ONet (NSent u r)) tr) -> (forall m r, ~ In (m, ONet (NRet u r)) tr) -> n_now (i_net s) + dt <= n + D) /\
       (forall a n t id b, tr = a ++ (n, OOwn t id) :: b -> (forall m o, In (m, o) b -> ~ does t o) -> n_now (i_net s) + dt <= n + E)) ->
    timely D E s0 (es ++ [e]) s' (tr ++ istamp (n_now (i_net s)) os).
(** how long task [t] may take: for each question [D] and three seconds, for each of the other interviews [E] *)
Definition allowed (D E : Z) (t : nat) (tr : itrace) : Z := Z.of_nat (length (asked t tr)) * (D + 3000) + Z.of_nat (length (begun t tr)) * E.
