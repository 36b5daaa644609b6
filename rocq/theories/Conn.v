(** One Z/IP connection as an event driven machine: zipconnection.py ZIPConnection, adapter.py Ack and
    Adapter, util.py MessageWaiter.  Python code between two awaits runs without interruption, so one event
    is one such piece of code; which event comes next is left open (any scheduler).

    [asyncio.wait_for(x, timeout)] (CPython 3.7 - 3.11): a timer marks the waiting task as expired ([PhExpired]);
    when the task runs again it cancels [x] and waits for the cancellation ([PhExpiring]); when it runs the next
    time it raises TimeoutError.  If [x] completed before the task ran, the result is returned instead.
    A time out of zero or less goes to [PhExpiring] at once.  A timer that fires after an Event was set does not make
    the waiting task fail: the loop runs callbacks in order, so the task waiting in [Event.wait] is done first.

    Time is in milliseconds.  Not modelled: socket errors and closing, log output, time outs given as None. *)
From Coq Require Import String ZArith List Bool.
From Verif Require Import Py Schema Registry Codec Waiter.
Import ListNotations.
Open Scope list_scope.
Open Scope string_scope.
Open Scope list_scope.
Open Scope Z_scope.

(** ** State *)
(** adapter.py l.24-37 Ack *)
Inductive astatus := SPending | SQueued | SReceived.
Record ack := mkAck { a_status : astatus; a_delay : Z; a_set : bool }.
Definition ack0 : ack := mkAck SPending 0 false.
(** l.39-42 *)
Definition ack_received (a : ack) : ack := mkAck SReceived (a_delay a) true.
(** l.44-53, seconds *)
Definition ack_queued (d : Z) (a : ack) : ack := mkAck SQueued ((if d <? 0 then 120 else d) + 60) true.

Inductive phase := PhWaiting | PhExpired | PhExpiring.
(** the calls a user can make; times in milliseconds, message classes by their id *)
Inductive call :=
| CSend (cmd : val) (sep dep timeout : Z)                       (* ZIPConnection.send *)
| CSendRecv (cmd : val) (sep dep : Z) (h timeout : Z)           (* Adapter.sendAndReceive *)
| CWait (h timeout : Z).                                        (* MessageWaiter.waitForMessage *)
Inductive result := RBool (b : bool) | RMsg (v : val) | RExc (e : exn).
(** where a task is suspended *)
Inductive pc :=
| PAck (aid : nat) (sq deadline : Z) (ph : phase) (session : option nat)  (* in Ack.wait; [session]: future of sendAndReceive *)
| PWait (h : Z) (f : nat) (deadline : Z) (ph : phase)                     (* in waitForMessage *)
| PCancel (h : Z) (f : nat)                                               (* waitForMessage, cancelled by its caller *)
| PDone (r : result).
Record task := mkT { t_call : call; t_pc : pc }.

Record conn := mkC {
  c_now : Z; c_up : bool; c_ka : option Z;      (* clock, socket open, due time of the keep-alive timer *)
  c_seq : Z; c_ackq : list (Z * nat); c_acks : list ack;
  c_w : waiter; c_tasks : list task }.
(** zipconnection.py l.23-30, adapter.py l.68-71 *)
Definition conn0 : conn := mkC 0 false None 0 [] [] waiter0 [].

(** ** Observations *)
Inductive obs :=
| OCall (t : nat) (c : call)       (* a call starts *)
| OWire (t : option nat) (bs : list Z)  (* a datagram is written, by a call or by the keep-alive timer *)
| ORecv (bs : list Z)              (* a datagram is received *)
| OHandled (b : bool)              (* what onPacket returned *)
| OErr (e : exn)                   (* onPacket raised into the event loop *)
| OHeard (v : val)                 (* speak("onMessageReceived", v) *)
| ORearm (t : nat) (d : Z)         (* a waiting send starts to wait [d] seconds longer *)
| ORet (t : nat) (r : result).     (* a call ends *)
Inductive event :=
| EvConnect | EvAdvance (dt : Z) | EvCall (c : call) | EvPacket (bs : list Z)
| EvTimer (t : nat) | EvResume (t : nat) | EvCancel (t : nat) | EvKeepAlive.

(** ** Record updates *)
Definition set_w (w : waiter) (s : conn) : conn := mkC (c_now s) (c_up s) (c_ka s) (c_seq s) (c_ackq s) (c_acks s) w (c_tasks s).
Definition set_task (t : nat) (x : task) (s : conn) : conn :=
  mkC (c_now s) (c_up s) (c_ka s) (c_seq s) (c_ackq s) (c_acks s) (c_w s) (upd t x (c_tasks s)).
Definition set_pc (t : nat) (p : pc) (s : conn) : conn :=
  match nth_error (c_tasks s) t with Some x => set_task t (mkT (t_call x) p) s | None => s end.
Definition set_seq (q : Z) (s : conn) : conn := mkC (c_now s) (c_up s) (c_ka s) q (c_ackq s) (c_acks s) (c_w s) (c_tasks s).
Definition set_ackq (q : list (Z * nat)) (s : conn) : conn := mkC (c_now s) (c_up s) (c_ka s) (c_seq s) q (c_acks s) (c_w s) (c_tasks s).
Definition set_ack (i : nat) (a : ack) (s : conn) : conn := mkC (c_now s) (c_up s) (c_ka s) (c_seq s) (c_ackq s) (upd i a (c_acks s)) (c_w s) (c_tasks s).
Definition add_ack (sq : Z) (s : conn) : conn :=
  mkC (c_now s) (c_up s) (c_ka s) (c_seq s) (dset Z.eqb sq (length (c_acks s)) (c_ackq s)) (c_acks s ++ [ack0]) (c_w s) (c_tasks s).
(** zipconnection.py l.133-138 resetKeepAlive: 25 seconds from now *)
Definition reset_ka (s : conn) : conn := mkC (c_now s) (c_up s) (Some (c_now s + 25000)) (c_seq s) (c_ackq s) (c_acks s) (c_w s) (c_tasks s).

(** connection.py l.77-83 Connection.send: nothing is written before the socket is open *)
Definition conn_send (t : option nat) (bs : list Z) (s : conn) : list obs := if c_up s then [OWire t bs] else [].

(** ** Sending *)
(** zipconnection.py l.142-157: the packet around a command *)
Definition send_kw (sq sep dep : Z) (cmd : val) : adict :=
  [("ackRequest", VBool true); ("ackResponse", VBool false); ("nackResponse", VBool false); ("nackWaiting", VBool false);
   ("nackQueueFull", VBool false); ("nackOptionError", VBool false); ("headerExtIncluded", VBool false);
   ("zwCmdIncluded", VBool true); ("moreInformation", VBool false); ("secureOrigin", VBool true); ("seqNo", VInt sq);
   ("sourceEP", VInt sep); ("destEP", VInt dep); ("command", cmd)].
Definition send_bytes (sq sep dep : Z) (cmd : val) : res (list Z) :=
  do m <- new_msg m_Zip_ZipPacket (send_kw sq sep dep cmd); compose m.

(** a call ends *)
Definition finish (t : nat) (r : result) (s : conn) : conn * list obs := (set_pc t (PDone r) s, [ORet t r]).

(** util.py l.192-203 waitForMessage up to the suspension in wait_for; [f] is the session *)
Definition start_wait (t : nat) (h : Z) (f : nat) (tmo : Z) (s : conn) : conn :=
  if 0 <? tmo then set_pc t (PWait h f (c_now s + tmo) PhWaiting) s
  else match nth_error (w_futs (c_w s)) f with
       | Some FPending => set_pc t (PWait h f (c_now s + tmo) PhExpiring) (set_w (cancel_fut f (c_w s)) s)
       | _ => set_pc t (PWait h f (c_now s + tmo) PhWaiting) s
       end.

(** what follows when send has returned [b]: adapter.py l.213-215 for sendAndReceive *)
Definition after_send (t : nat) (b : bool) (session : option nat) (s : conn) : conn * list obs :=
  match session, nth_error (c_tasks s) t with
  | Some f, Some (mkT (CSendRecv _ _ _ h tmo) _) => (start_wait t h f tmo s, [])
  | _, _ => finish t (RBool b) s
  end.

(** zipconnection.py l.140-164 send with adapter.py l.226-233 waitForAck, up to the suspension in Ack.wait *)
Definition start_send (t : nat) (cmd : val) (sep dep tmo : Z) (session : option nat) (s : conn) : conn * list obs :=
  let sq := Z.land (c_seq s + 1) 255 in
  let s := set_seq sq s in
  match send_bytes sq sep dep cmd with
  | Err e => finish t (RExc e) s
  | Ok bs =>
      let o := conn_send (Some t) bs s in
      let s := reset_ka s in
      if dmem Z.eqb sq (c_ackq s) then let (s, o') := finish t (RExc EDuplicateAck) s in (s, o ++ o')
      else
        let aid := length (c_acks s) in
        let s := add_ack sq s in
        (set_pc t (PAck aid sq (c_now s + tmo) (if 0 <? tmo then PhWaiting else PhExpiring) session) s, o)
  end.

Definition start_call (t : nat) (c : call) (s : conn) : conn * list obs :=
  match c with
  | CSend cmd sep dep tmo => start_send t cmd sep dep tmo None s
  | CSendRecv cmd sep dep h tmo =>       (* send keeps its own default time out of 3 seconds *)
      let (f, w) := add_session h (c_w s) in
      start_send t cmd sep dep 3000 (Some f) (set_w w s)
  | CWait h tmo =>
      let (f, w) := add_session h (c_w s) in (start_wait t h f tmo (set_w w s), [])
  end.

(** ** Receiving *)
(** Zip.py l.190-193 HeaderExtension.expectedDelay; a header without extension has a plain dict or None there *)
Definition expected_delay (v : val) : res Z :=
  match v with
  | VHdr l => match dget Z.eqb 1 l with Some x => to_int x | None => Ok 0 end
  | _ => Err EAttribute
  end.
(** adapter.py l.73-88 ackReceived *)
Definition ack_packet (m : val) (s : conn) : conn * res bool :=
  let entry := match to_int (getattr m "seqNo") with Ok q => match dget Z.eqb q (c_ackq s) with Some i => Some (q, i) | None => None end | Err _ => None end in
  if truthy (getattr m "nackResponse") && truthy (getattr m "nackWaiting") then
    match entry with
    | None => (s, Ok false)
    | Some (_, i) =>
        match expected_delay (getattr m "headerExtension") with
        | Err e => (s, Err e)
        | Ok d => (match nth_error (c_acks s) i with Some a => set_ack i (ack_queued d a) s | None => s end, Ok true)
        end
    end
  else
    match entry with
    | None => (s, Ok false)
    | Some (q, i) =>
        let s := set_ackq (ddel Z.eqb q (c_ackq s)) s in
        (match nth_error (c_acks s) i with Some a => set_ack i (ack_received a) s | None => s end, Ok true)
    end.
(** adapter.py l.120-127 commandReceived *)
Definition command_received (m : val) (s : conn) : conn * list obs :=
  let msg := match m with VObj (CMsg c) _ => if String.eqb (s_name c) (s_name m_Zip_ZipPacket) then getattr m "command" else m | _ => m end in
  let (w, r) := message_received msg (c_w s) in
  let s := set_w w s in
  match r with
  | Err e => (s, [OErr e])
  | Ok true => (s, [OHandled true])
  | Ok false => (s, [OHeard m; OHandled true])
  end.
Definition is_msg (sch : schema) (m : val) : bool :=
  match m with VObj (CMsg c) _ => String.eqb (s_name c) (s_name sch) | _ => false end.
(** zipconnection.py l.77-115 onPacket *)
Definition on_packet (bs : list Z) (s : conn) : conn * list obs :=
  match decode bs with
  | Err _ => (s, [OHandled false])
  | Ok m =>
      if is_msg m_Zip_ZipPacket m then
        let acked := let (s, r) := ack_packet m s in
          (s, [match r with Ok _ => OHandled true | Err e => OErr e end]) in
        if truthy (getattr m "ackResponse") then acked
        else if truthy (getattr m "nackResponse") then
          if truthy (getattr m "nackWaiting") then acked else (s, [OHandled false])
        else if truthy (getattr m "ackRequest") then (s, [OHandled false])
        else if truthy (getattr m "zwCmdIncluded") then command_received m s
        else (s, [OHandled true])
      else if is_msg m_Zip_ZipKeepAlive m then
        (s, [OHandled (truthy (getattr m "ackResponse"))])
      else if is_msg m_ZipND_ZipNodeAdvertisement m then command_received m s
      else (s, [OHandled false])
  end.

(** ** Resuming a task *)
Definition resume (t : nat) (p : pc) (s : conn) : option (conn * list obs) :=
  match p with
  | PAck aid sq dl PhWaiting ses =>
      match nth_error (c_acks s) aid with
      | Some (mkAck st d true) =>
          match st with
          | SQueued =>                    (* adapter.py l.60-62 *)
              Some (set_pc t (PAck aid sq (c_now s + 1000 * d) PhWaiting ses) (set_ack aid (mkAck st d false) s), [ORearm t d])
          | _ => Some (after_send t true ses s)
          end
      | _ => None
      end
  | PAck aid sq dl PhExpired ses => Some (set_pc t (PAck aid sq dl PhExpiring ses) s, [])
  | PAck aid sq dl PhExpiring ses =>      (* adapter.py l.234-237, zipconnection.py l.162-163 *)
      if dmem Z.eqb sq (c_ackq s) then Some (after_send t false ses (set_ackq (ddel Z.eqb sq (c_ackq s)) s))
      else Some (finish t (RExc EKey) s)
  | PWait h f dl ph =>
      match nth_error (w_futs (c_w s)) f, ph with
      | Some (FDone m), PhWaiting | Some (FDone m), PhExpired =>
          Some (finish t (RMsg m) (set_w (pop_sess h (c_w s)) s))
      | Some FCancelled, PhWaiting | Some FCancelled, PhExpired =>
          Some (finish t (RExc ECancelled) (set_w (pop_sess h (c_w s)) s))
      | Some FPending, PhExpired =>
          Some (set_pc t (PWait h f dl PhExpiring) (set_w (cancel_fut f (c_w s)) s), [])
      | _, PhExpiring => Some (finish t (RExc ETimeout) (set_w (pop_sess h (c_w s)) s))
      | _, _ => None
      end
  | PCancel h f => Some (finish t (RExc ECancelled) (set_w (pop_sess h (c_w s)) s))
  | PDone _ => None
  end.

(** the caller cancels the task: nothing in send, waitForAck or sendAndReceive cleans up; waitForMessage
    cancels its future and removes the session *)
Definition cancel (t : nat) (p : pc) (s : conn) : option (conn * list obs) :=
  match p with
  | PAck _ _ _ _ _ => Some (finish t (RExc ECancelled) s)
  | PWait h f _ _ => Some (set_pc t (PCancel h f) (set_w (cancel_fut f (c_w s)) s), [])
  | _ => None
  end.

(** ** Steps.  [None]: the event cannot happen in this state. *)
Definition step (s : conn) (e : event) : option (conn * list obs) :=
  match e with
  | EvConnect => Some (reset_ka (mkC (c_now s) true (c_ka s) (c_seq s) (c_ackq s) (c_acks s) (c_w s) (c_tasks s)), [])  (* l.48-50 *)
  | EvAdvance dt => if 0 <=? dt then Some (mkC (c_now s + dt) (c_up s) (c_ka s) (c_seq s) (c_ackq s) (c_acks s) (c_w s) (c_tasks s), []) else None
  | EvCall c =>
      let t := length (c_tasks s) in
      let s := mkC (c_now s) (c_up s) (c_ka s) (c_seq s) (c_ackq s) (c_acks s) (c_w s) (c_tasks s ++ [mkT c (PDone (RExc EUnmodelled))]) in
      let (s, o) := start_call t c s in Some (s, OCall t c :: o)
  | EvPacket bs =>    (* datagrams are byte strings and need an open socket *)
      if c_up s && forallb is_byte bs then let (s, o) := on_packet bs s in Some (s, ORecv bs :: o) else None
  | EvTimer t =>
      match nth_error (c_tasks s) t with
      | Some (mkT _ (PAck aid sq dl PhWaiting ses)) =>
          match nth_error (c_acks s) aid with
          | Some a => if (dl <=? c_now s) && negb (a_set a) then Some (set_pc t (PAck aid sq dl PhExpired ses) s, []) else None
          | None => None
          end
      | Some (mkT _ (PWait h f dl PhWaiting)) => if dl <=? c_now s then Some (set_pc t (PWait h f dl PhExpired) s, []) else None
      | _ => None
      end
  | EvResume t => match nth_error (c_tasks s) t with Some x => resume t (t_pc x) s | None => None end
  | EvCancel t => match nth_error (c_tasks s) t with Some x => cancel t (t_pc x) s | None => None end
  | EvKeepAlive =>    (* l.71-75 *)
      match c_ka s with
      | Some d => if d <=? c_now s then
          match new_msg m_Zip_ZipKeepAlive [("ackRequest", VBool true); ("ackResponse", VBool false)] with
          | Ok m => match compose m with Ok bs => Some (reset_ka s, conn_send None bs s) | Err e => None end
          | Err e => None
          end else None
      | None => None
      end
  end.

(** ** Executions: the events from [s0] on, the state reached and the time stamped observations *)
Definition stamp (n : Z) (os : list obs) : list (Z * obs) := map (pair n) os.
Inductive exec (s0 : conn) : list event -> conn -> list (Z * obs) -> Prop :=
| X_nil : exec s0 [] s0 []
| X_snoc es s tr e s' os : exec s0 es s tr -> step s e = Some (s', os) -> exec s0 (es ++ [e]) s' (tr ++ stamp (c_now s) os).
Definition reachable (s : conn) : Prop := exists es tr, exec conn0 es s tr.
(** executable form, for examples *)
Fixpoint run (s : conn) (es : list event) : option (conn * list (Z * obs)) :=
  match es with
  | [] => Some (s, [])
  | e :: es' => match step s e with
                | Some (s', os) => match run s' es' with Some (s'', tr) => Some (s'', stamp (c_now s) os ++ tr) | None => None end
                | None => None
                end
  end.
