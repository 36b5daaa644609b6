(** connection.py: the plain UDP connection object, as an event driven machine.
    The event loop's transports are the environment: opening takes any time and may fail, datagrams arrive and transports are
    lost at any time.  A transport that is closing takes no more datagrams and silently drops what is written
    (asyncio/selector_events.py, sendto and _read_ready after close). *)
From Coq Require Import ZArith List Bool.
From Verif Require Import Py.
Import ListNotations.
Open Scope Z_scope.

(** one datagram endpoint: transport, protocol and (for a client) the task [run], connection.py l.9-33, l.71-75 *)
Record endpoint := { e_server : bool; e_open : bool; e_lost : bool; e_run : bool (* the task run exists and waits *) }.
(** a coroutine connect (l.48-60) or listen (l.62-69): before the endpoint exists, before it is resumed with endpoint [e], done *)
Inductive opening := OpPending (server : bool) | OpMade (server : bool) (e : nat) | OpDone.
(** l.39-46: [_sock], [_onMessage], [_server]; callbacks are numbers *)
Record udp := { u_sock : option nat; u_cb : option nat; u_server : bool; u_ends : list endpoint; u_tasks : list opening }.
Definition udp0 : udp := {| u_sock := None; u_cb := None; u_server := false; u_ends := []; u_tasks := [] |}.

Inductive uevent :=
| UConnect | UListen                       (* a coroutine is started *)
| UMade (t : nat)                          (* the event loop made the transport *)
| UFail (t : nat)                          (* the event loop could not *)
| UResume (t : nat)                        (* the coroutine goes on *)
| UOnMessage (cb : option nat)             (* l.89-91 *)
| UArrive (e : nat) (bs : list Z) (from : Z)   (* a datagram on endpoint [e] *)
| USend (bs : list Z) | USendTo (bs : list Z) (to : Z)
| UStop
| ULost (e : nat)                          (* the event loop reports the end of a transport *)
| URun (e : nat).                          (* the task run goes on *)
Inductive uobs :=
| BMade (t : nat) (e : nat) (server : bool)                       (* the event loop made endpoint [e] for coroutine [t] *)
| BReady (t : nat) (e : nat)                                      (* coroutine [t] returned, its endpoint is [e] *)
| BFailed (t : nat)
| BSet (cb : option nat)
| BArrived (e : nat) (bs : list Z) (from : Z)
| BCall (cb : nat) (bs : list Z) (from : option Z)                (* the callback is called with one or two arguments *)
| BWrite (e : nat) (bs : list Z) (to : option Z) (written : bool) (* a write to transport [e]; [written] if it is open *)
| BSend (bs : list Z) (r : res bool)                              (* what send returned *)
| BSendTo (bs : list Z) (to : Z) (r : res unit)
| BStop (r : res unit)
| BLost (e : nat)
| BClose (e : nat).                                               (* transport [e] is told to close *)

Definition upd {A} (l : list A) (i : nat) (x : A) : list A := firstn i l ++ match skipn i l with [] => [] | _ :: r => x :: r end.
Definition with_ends (s : udp) es : udp := {| u_sock := u_sock s; u_cb := u_cb s; u_server := u_server s; u_ends := es; u_tasks := u_tasks s |}.
Definition with_tasks (s : udp) ts : udp := {| u_sock := u_sock s; u_cb := u_cb s; u_server := u_server s; u_ends := u_ends s; u_tasks := ts |}.
(** transport.close() *)
Definition shut (s : udp) (e : nat) : udp :=
  match nth_error (u_ends s) e with
  | Some p => with_ends s (upd (u_ends s) e {| e_server := e_server p; e_open := false; e_lost := e_lost p; e_run := e_run p |})
  | None => s
  end.
Definition is_open (s : udp) (e : nat) : bool := match nth_error (u_ends s) e with Some p => e_open p | None => false end.

Definition ustep (s : udp) (v : uevent) : udp * list uobs :=
  match v with
  | UConnect => (with_tasks s (u_tasks s ++ [OpPending false]), [])                                    (* l.48-55 *)
  | UListen =>                                                                                         (* l.62-66 *)
      ({| u_sock := u_sock s; u_cb := u_cb s; u_server := true; u_ends := u_ends s; u_tasks := u_tasks s ++ [OpPending true] |}, [])
  | UMade t =>                                                                                         (* l.55-58, l.66-69, l.12-19 *)
      match nth_error (u_tasks s) t with
      | Some (OpPending sv) =>
          let e := length (u_ends s) in
          (with_tasks (with_ends s (u_ends s ++ [{| e_server := sv; e_open := true; e_lost := false; e_run := false |}])) (upd (u_tasks s) t (OpMade sv e)), [BMade t e sv])
      | _ => (s, [])
      end
  | UFail t =>
      match nth_error (u_tasks s) t with
      | Some (OpPending _) => (with_tasks s (upd (u_tasks s) t OpDone), [BFailed t])
      | _ => (s, [])
      end
  | UResume t =>                                                                                       (* l.55, l.59; l.66 *)
      match nth_error (u_tasks s) t with
      | Some (OpMade sv e) =>
          let ends := match nth_error (u_ends s) e with
                      | Some p => if sv then u_ends s else upd (u_ends s) e {| e_server := e_server p; e_open := e_open p; e_lost := e_lost p; e_run := true |}
                      | None => u_ends s
                      end in
          ({| u_sock := Some e; u_cb := u_cb s; u_server := u_server s; u_ends := ends; u_tasks := upd (u_tasks s) t OpDone |}, [BReady t e])
      | _ => (s, [])
      end
  | UOnMessage cb => ({| u_sock := u_sock s; u_cb := cb; u_server := u_server s; u_ends := u_ends s; u_tasks := u_tasks s |}, [BSet cb])
  | UArrive e bs from =>                                                                               (* l.21-23, l.98-104 *)
      if is_open s e then
        (s, BArrived e bs from ::
            match u_cb s with
            | None => []
            | Some cb => [BCall cb bs (if u_server s then Some from else None)]
            end)
      else (s, [])
  | USend bs =>                                                                                        (* l.77-83 *)
      match u_sock s with
      | None => (s, [BSend bs (Ok false)])
      | Some e => (s, [BWrite e bs None (is_open s e); BSend bs (Ok true)])
      end
  | USendTo bs to =>                                                                                   (* l.85-87 *)
      match u_sock s with
      | None => (s, [BSendTo bs to (Err EAttribute)])
      | Some e => (s, [BWrite e bs (Some to) (is_open s e); BSendTo bs to (Ok tt)])
      end
  | UStop =>                                                                                           (* l.93-96 *)
      match u_sock s with
      | None => (s, [BStop (Err EAttribute)])
      | Some e => (shut s e, [BClose e; BStop (Ok tt)])
      end
  | ULost e =>                                                                                         (* l.29-32; the loop calls this once *)
      match nth_error (u_ends s) e with
      | Some p => if e_lost p then (s, [])
                  else (with_ends s (upd (u_ends s) e {| e_server := e_server p; e_open := false; e_lost := true; e_run := e_run p |}), [BLost e])
      | None => (s, [])
      end
  | URun e =>                                                                                          (* l.71-75: closes the socket of the object *)
      match nth_error (u_ends s) e with
      | Some p => if e_lost p && e_run p then
                    let s1 := with_ends s (upd (u_ends s) e {| e_server := e_server p; e_open := e_open p; e_lost := true; e_run := false |}) in
                    match u_sock s with Some e' => (shut s1 e', [BClose e']) | None => (s1, []) end
                  else (s, [])
      | None => (s, [])
      end
  end.
Fixpoint urun (s : udp) (vs : list uevent) : udp * list uobs :=
  match vs with
  | [] => (s, [])
  | v :: vs' => let (s1, o) := ustep s v in let (s2, o') := urun s1 vs' in (s2, o ++ o')
  end.
