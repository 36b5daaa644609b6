(** Vocabulary for C122: which queue a mailbox message is about, and whose queues they are. *)
From Coq Require Import String ZArith List Bool.
From Verif Require Import Py Schema Registry Codec MailboxM SpecMailbox.
Import ListNotations.
Open Scope list_scope.
Open Scope string_scope.
Open Scope list_scope.
Open Scope Z_scope.

Definition mtrace := list (Z * mobs).
Definition called (name : string) (m : val) : bool := match m with VObj (CMsg c) _ => String.eqb (s_name c) name | _ => false end.
Definition number (f : string) (m : val) : option Z := match to_int (getattr m f) with Ok z => Some z | Err _ => None end.
(** the queue named by the last wake-up notification *)
Definition last_wake (tr : mtrace) : option Z :=
  last (flat_map (fun x => match snd x with MIn _ m => if called "Mailbox.WakeupNotification" m then [number "queueHandle" m] else [] | _ => [] end) tr) None.
(** the queue a message is about, when it comes after [tr]: an acknowledgement that names no queue is about the one woken up last *)
Definition about (tr : mtrace) (m : val) : option Z :=
  if called "Mailbox.WakeupNotification" m then number "queueHandle" m
  else if called "Mailbox.Queue" m then
    match number "operation" m, number "queueHandle" m with
    | Some 0, h => h
    | Some 4, (Some 0 | None) => last_wake tr
    | Some 4, h => h
    | _, _ => None
    end
  else None.
(** messages that name queue [h] come from node [own h] *)
Definition owned (own : Z -> Z) (tr : mtrace) : Prop := forall n node m, In (n, MIn node m) tr ->
  (called "Mailbox.WakeupNotification" m = true \/ called "Mailbox.Queue" m = true) -> forall h, number "queueHandle" m = Some h -> h <> 0 -> node = own h.
(** messages about a queue, named or not, come from its owner *)
Definition polite (own : Z -> Z) (tr : mtrace) : Prop := forall a n node m b h, tr = a ++ (n, MIn node m) :: b -> about a m = Some h -> node = own h.
(** every stored message that is delivered goes to a node that pushed it *)
Definition returned (tr : mtrace) : Prop := forall a n w node m b h d, tr = a ++ (n, MSend w node m) :: b -> delivers m h d -> exists n' m', In (n', MIn node m') a /\ pushes m' h d.
