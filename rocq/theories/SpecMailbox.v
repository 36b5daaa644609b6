(** Vocabulary for mailbox properties. *)
From Coq Require Import String ZArith List Bool.
From Verif Require Import Py Schema Registry Codec MailboxM.
Import ListNotations.
Open Scope list_scope.
Open Scope string_scope.
Open Scope list_scope.
Open Scope Z_scope.

(** ** What a Mailbox.Queue message says: operation, queue handle, entry if there is one *)
Definition parts (m : val) : option (Z * Z * option (list Z)) :=
  match m with
  | VObj (CMsg c) d =>
      if String.eqb (s_name c) "Mailbox.Queue" then
        match to_int (getattr m "operation"), to_int (getattr m "queueHandle") with
        | Ok op, Ok h => Some (op, h, match aget "mailboxEntry" d with Some (VBytes e) => Some e | Some (VPBytes e) => Some e | _ => None end)
        | _, _ => None
        end
      else None
  | _ => None
  end.
Definition PUSH := 0. Definition POP := 1. Definition WAITING := 2. Definition PING := 3. Definition ACK := 4.
(** the message asks to store [data] for queue [h]; a missing entry is an empty one *)
Definition pushes (m : val) (h : Z) (data : list Z) : Prop := exists e, parts m = Some (PUSH, h, e) /\ data = match e with Some d => d | None => [] end.
(** the message delivers [data] from queue [h] *)
Definition delivers (m : val) (h : Z) (data : list Z) : Prop := parts m = Some (POP, h, Some data).

(** ** Counting in traces *)
Definition bytes_eqb (a b : list Z) : bool := if list_eq_dec Z.eq_dec a b then true else false.
Definition is_push (h : Z) (data : list Z) (x : Z * mobs) : bool :=
  match snd x with
  | MIn _ m => match parts m with Some (0, h', e) => (h' =? h) && bytes_eqb (match e with Some d => d | None => [] end) data | _ => false end
  | _ => false
  end.
Definition is_delivery (h : Z) (data : list Z) (x : Z * mobs) : bool :=
  match snd x with
  | MSend _ _ m => match parts m with Some (1, h', Some d) => (h' =? h) && bytes_eqb d data | _ => false end
  | _ => false
  end.
(** a stored message is a QueueItem with its heartbeat task *)
Definition is_for (h : Z) (data : list Z) (x : beat) : bool := (bt_handle x =? h) && bytes_eqb (bt_data x) data.
Definition holds (data : list Z) (it : item) : bool := bytes_eqb (it_data it) data.
Definition count {A} (f : A -> bool) (l : list A) : nat := length (filter f l).

(** ** Runs *)
(** a push to [h] is still waiting for its notice to be acknowledged *)
Definition pushing (h : Z) (s : mbox) : Prop := exists t node d, nth_error (m_tasks s) t = Some (MPush node h d).
(** pushes to one queue are handled one at a time *)
Inductive serial : list mevent -> mbox -> list (Z * mobs) -> Prop :=
| SE_nil : serial [] mbox0 []
| SE_snoc es s tr e s' os : serial es s tr -> (forall node m h d, e = EvMessage node m -> pushes m h d -> ~ pushing h s) ->
    mstep s e = Some (s', os) -> serial (es ++ [e]) s' (tr ++ mstamp (m_now s) os).
(** a push of [data] to [h] whose waiting notice is acknowledged at once; a wake-up answered at once *)
Definition push_msg (h : Z) (data : list Z) : val := VObj (CMsg m_Mailbox_Queue) [("operation", VU 3 0); ("queueHandle", VI false 1 h); ("mailboxEntry", VBytes data)].
Definition wake_msg (h : Z) : val := VObj (CMsg m_Mailbox_WakeupNotification) [("queueHandle", VI false 1 h)].
(** [t] is the number of the first task *)
Fixpoint push_all (node h : Z) (t : nat) (ds : list (list Z)) : list mevent :=
  match ds with [] => [] | d :: ds' => EvMessage node (push_msg h d) :: EvSent t (Ok true) :: push_all node h (S t) ds' end.
Fixpoint wake_all (node h : Z) (t : nat) (n : nat) : list mevent :=
  match n with O => [] | S n' => EvMessage node (wake_msg h) :: EvSent t (Ok true) :: wake_all node h (S t) n' end.
(** messages handed to the radio for queue [h], in order *)
Definition delivered (h : Z) (tr : list (Z * mobs)) : list (list Z) :=
  flat_map (fun x => match snd x with MSend _ _ m => match parts m with Some (1, h', Some d) => if h' =? h then [d] else [] | _ => [] end | _ => [] end) tr.

(** what handler [t] sent *)
Definition sent_by (t : nat) (tr : list (Z * mobs)) : list (Z * val) :=
  flat_map (fun x => match snd x with MSend (ByTask t') node m => if Nat.eqb t' t then [(node, m)] else [] | _ => [] end) tr.

(** ** Heartbeats: those of task [b], with their time, receiver and message *)
Definition heartbeats (b : nat) (tr : list (Z * mobs)) : list (Z * Z * val) :=
  flat_map (fun x => match snd x with MSend (ByBeat b') node m => if Nat.eqb b' b then [(fst x, node, m)] else [] | _ => [] end) tr.
(** the times are 60 seconds or more apart *)
Fixpoint spaced (n0 : Z) (l : list (Z * Z * val)) : Prop := match l with [] => True | (n, _, _) :: l' => n0 + 60000 <= n /\ spaced n l' end.
(** no heartbeat fails to be sent *)
Definition beat_fails (e : mevent) : Prop := match e with EvBeatSent _ (Err _) => True | _ => False end.
(** time passes only while nothing that is due is left over and every message handed over has been answered *)
Definition settled (s : mbox) (dt : Z) : Prop :=
  forall b x, nth_error (m_beats s) b = Some x -> match bt_pc x with BSleep due => m_now s + dt <= due | BSending => dt = 0 | BOver => True end.
Inductive prompt : list mevent -> mbox -> list (Z * mobs) -> Prop :=
| PR_nil : prompt [] mbox0 []
| PR_snoc es s tr e s' os : prompt es s tr -> ~ beat_fails e -> (forall dt, e = EvTick dt -> settled s dt) -> mstep s e = Some (s', os) ->
    prompt (es ++ [e]) s' (tr ++ mstamp (m_now s) os).
