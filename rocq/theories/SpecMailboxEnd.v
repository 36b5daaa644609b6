(** Vocabulary for C124: how the handling of mailbox messages ends. *)
From Coq Require Import String ZArith List Bool.
From Verif Require Import Py Schema Registry Codec MailboxM SpecMailbox SpecMailboxTo.
Import ListNotations.
Open Scope list_scope.
Open Scope string_scope.
Open Scope list_scope.
Open Scope Z_scope.

(** the messages handled; the handler of the first one is number 0 *)
Definition inputs (tr : mtrace) : list (Z * val) := flat_map (fun x => match snd x with MIn node m => [(node, m)] | _ => [] end) tr.
(** how handler [t] ended *)
Definition results (t : nat) (tr : mtrace) : list (res bool) := flat_map (fun x => match snd x with MRet t' r => if Nat.eqb t' t then [r] else [] | _ => [] end) tr.
(** messages the service has to answer: wake-ups, acknowledgements and pushes *)
Definition asks (m : val) : Prop := called "Mailbox.WakeupNotification" m = true \/ called "Mailbox.Queue" m = true /\ (number "operation" m = Some 0 \/ number "operation" m = Some 4).
(** handler [t] was given [m] after [a] *)
Definition given (t : nat) (tr a : mtrace) (m : val) : Prop := exists n node b, tr = a ++ (n, MIn node m) :: b /\ length (inputs a) = t.
(** the property: a handler ends with an exception only if the adapter raised it *)
Definition no_fault (es : list mevent) (tr : mtrace) : Prop := forall t e, In (Err e) (results t tr) -> In (EvSent t (Err e)) es.
