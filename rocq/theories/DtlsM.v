(** dtlsconnection.py: the DTLS connection object, two threads.
    One step of the reading thread is one access to the state that it shares with the event loop; between any two of them the event loop's
    thread may do anything.  OpenSSL, the socket and the network are the environment: the handshake takes any time or fails, packets
    and errors come at any time.  Not modelled: the ctypes callbacks (l.107-146), the options of the socket (l.148-217), the psk, closing of the event loop,
    asyncio's debug mode (which checks callbacks in call_soon_threadsafe). *)
From Coq Require Import ZArith List Bool.
From Verif Require Import Py.
Import ListNotations.
Open Scope Z_scope.

(** where the thread is in run, l.69-90 *)
Inductive thread :=
| TNew                                        (* not started *)
| TOpen                                       (* in createDtlsPskSock, l.70 *)
| TSignal | TFlag                             (* before l.71, before l.72 *)
| TTest                                       (* before the loop test l.73 and the test of [_server], l.75 *)
| TRecv (sv : bool)                           (* in recvfrom, l.76, or recv, l.80 *)
| TGot (sv : bool) (p : list Z) (a : Z)       (* before the test of [_onMessage], l.77, l.81 *)
| TPass (sv : bool) (p : list Z) (a : Z)      (* before l.78, l.82, which read [_onMessage] again *)
| TEnd.
(** what the event loop was told to run: [_connectionEvent.set], or a callback (a number; None is python's None) *)
Inductive item := QSet | QCall (cb : option nat) (p : list Z) (a : option Z).
(** a coroutine connect that awaits the event, l.61: until the dead line; the event was set; it has ended *)
Inductive waiting := WWait (dl : Z) | WWoken (dl : Z) | WDone.
(** l.38-53: [_sock] (is it there), [_running], [_server], [_onMessage]; the event, the queue of the event loop *)
Record dtls := mkD {
  x_now : Z;                                  (* the event loop's clock in milliseconds *)
  x_sock : bool; x_running : bool; x_server : bool; x_cb : option nat; x_event : bool;
  x_th : thread; x_queue : list item; x_waits : list waiting }.
Definition dtls0 : dtls := mkD 0 false false false None false TNew [] [].

Inductive devent :=
| DConnect | DListen                          (* l.55-67 *)
| DOpened | DOpenFailed                       (* createDtlsPskSock returns or raises *)
| DThread                                     (* the thread does its next access *)
| DRecv (p : list Z) (a : Z)                  (* recv or recvfrom returns *)
| DRecvErr (attr : bool)                      (* it raises AttributeError or something else *)
| DLoop                                       (* the event loop runs what it was told to *)
| DSet (cb : option nat)                      (* l.99-101 *)
| DStop                                       (* l.103-105 *)
| DSend (m : list Z) (r : res unit)           (* l.92-97; [r]: how the socket would take it *)
| DResume (t : nat)                           (* a connect whose event was set goes on *)
| DTimer (t : nat)                            (* the ten seconds of a connect are over *)
| DAdvance (dt : Z).
Inductive dobs :=
| YCall (t : nat)                             (* connect is called *)
| YReady (t : nat) | YTimeout (t : nat) | YRuntime (t : nat)   (* connect returned, raised TimeoutError, raised RuntimeError *)
| YListen (r : res unit)
| YOpened (sv : bool)                         (* there is a socket (for a client: the handshake is done) *)
| YEnded                                      (* the thread is over *)
| YRead (sv : bool) (p : list Z) (a : Z)      (* a packet was read from the socket *)
| YSet (cb : option nat)
| YDeliver (cb : nat) (p : list Z) (a : option Z)   (* the callback is called with one or two arguments *)
| YTypeError                                  (* the event loop calls None *)
| YStop
| YWrite (m : list Z)                         (* bytes are given to the socket *)
| YSend (m : list Z) (r : res unit).          (* send returned or raised *)

Definition with_th (th : thread) (s : dtls) : dtls := mkD (x_now s) (x_sock s) (x_running s) (x_server s) (x_cb s) (x_event s) th (x_queue s) (x_waits s).
Definition with_running (b : bool) (s : dtls) : dtls := mkD (x_now s) (x_sock s) b (x_server s) (x_cb s) (x_event s) (x_th s) (x_queue s) (x_waits s).
Definition with_queue (q : list item) (s : dtls) : dtls := mkD (x_now s) (x_sock s) (x_running s) (x_server s) (x_cb s) (x_event s) (x_th s) q (x_waits s).
Definition with_event (b : bool) (s : dtls) : dtls := mkD (x_now s) (x_sock s) (x_running s) (x_server s) (x_cb s) b (x_th s) (x_queue s) (x_waits s).
Definition with_waits (w : list waiting) (s : dtls) : dtls := mkD (x_now s) (x_sock s) (x_running s) (x_server s) (x_cb s) (x_event s) (x_th s) (x_queue s) w.
Fixpoint put (n : nat) (x : waiting) (l : list waiting) : list waiting :=
  match l, n with [], _ => [] | _ :: l', O => x :: l' | y :: l', S n' => y :: put n' x l' end.
Definition started (s : dtls) : bool := match x_th s with TNew => false | _ => true end.

(** one access of the thread, l.71-82 *)
Definition dthread (s : dtls) : option (dtls * list dobs) :=
  match x_th s with
  | TSignal => Some (with_th TFlag (with_queue (x_queue s ++ [QSet]) s), [])                                   (* l.71 *)
  | TFlag => Some (with_th TTest (with_running true s), [])                                                    (* l.72 *)
  | TTest => if x_running s then Some (with_th (TRecv (x_server s)) s, []) else Some (with_th TEnd s, [YEnded])
  | TGot sv p a => Some (with_th (match x_cb s with None => TTest | Some _ => TPass sv p a end) s, [])
  | TPass sv p a => Some (with_th TTest (with_queue (x_queue s ++ [QCall (x_cb s) p (if sv then Some a else None)]) s), [])
  | _ => None
  end.
(** the event loop runs the first callback it was told to *)
Definition dloop (s : dtls) : option (dtls * list dobs) :=
  match x_queue s with
  | [] => None
  | QSet :: q => Some (with_event true (with_waits (map (fun w => match w with WWait dl => WWoken dl | w => w end) (x_waits s)) (with_queue q s)), [])
  | QCall (Some cb) p a :: q => Some (with_queue q s, [YDeliver cb p a])
  | QCall None _ _ :: q => Some (with_queue q s, [YTypeError])
  end.
Definition dstep (s : dtls) (e : devent) : option (dtls * list dobs) :=
  match e with
  | DConnect =>                                                                      (* l.55-61; Thread.start raises RuntimeError the second time *)
      let t := length (x_waits s) in
      let s := with_event false s in
      if started s then Some (with_waits (x_waits s ++ [WDone]) s, [YCall t; YRuntime t])
      else Some (with_th TOpen (with_waits (x_waits s ++ [WWait (x_now s + 10000)]) s), [YCall t])
  | DListen =>                                                                       (* l.63-67 *)
      let s := mkD (x_now s) (x_sock s) (x_running s) true (x_cb s) (x_event s) (x_th s) (x_queue s) (x_waits s) in
      if started s then Some (s, [YListen (Err ERuntime)]) else Some (with_th TOpen s, [YListen (Ok tt)])
  | DOpened =>
      match x_th s with
      | TOpen => Some (mkD (x_now s) true (x_running s) (x_server s) (x_cb s) (x_event s) TSignal (x_queue s) (x_waits s), [YOpened (x_server s)])
      | _ => None
      end
  | DOpenFailed => match x_th s with TOpen => Some (with_th TEnd s, [YEnded]) | _ => None end
  | DThread => dthread s
  | DRecv p a => match x_th s with TRecv sv => Some (with_th (TGot sv p a) s, [YRead sv p a]) | _ => None end
  | DRecvErr attr =>                                                                 (* l.83-90 *)
      match x_th s with TRecv sv => if attr then Some (with_th TTest s, []) else Some (with_th TEnd s, [YEnded]) | _ => None end
  | DLoop => dloop s
  | DSet cb => Some (mkD (x_now s) (x_sock s) (x_running s) (x_server s) cb (x_event s) (x_th s) (x_queue s) (x_waits s), [YSet cb])
  | DStop => Some (with_running false s, [YStop])
  | DSend m r =>
      if x_sock s then match r with Ok _ => Some (s, [YWrite m; YSend m (Ok tt)]) | Err x => Some (s, [YSend m (Err x)]) end
      else Some (s, [YSend m (Ok tt)])
  | DResume t => match nth_error (x_waits s) t with Some (WWoken _) => Some (with_waits (put t WDone (x_waits s)) s, [YReady t]) | _ => None end
  | DTimer t =>                                                                      (* wait_for may prefer the time out to an event set at the same time *)
      match nth_error (x_waits s) t with
      | Some (WWait dl) | Some (WWoken dl) => if dl <=? x_now s then Some (with_waits (put t WDone (x_waits s)) s, [YTimeout t]) else None
      | _ => None
      end
  | DAdvance dt => if 0 <=? dt then Some (mkD (x_now s + dt) (x_sock s) (x_running s) (x_server s) (x_cb s) (x_event s) (x_th s) (x_queue s) (x_waits s), []) else None
  end.
(** executions: events, the state reached, the observations with their times *)
Inductive dexec (s0 : dtls) : list devent -> dtls -> list (Z * dobs) -> Prop :=
| dexec_nil : dexec s0 [] s0 []
| dexec_snoc es s tr e s' o : dexec s0 es s tr -> dstep s e = Some (s', o) -> dexec s0 (es ++ [e]) s' (tr ++ map (pair (x_now s)) o).
Fixpoint drun (s : dtls) (es : list devent) : option (dtls * list (Z * dobs)) :=
  match es with
  | [] => Some (s, [])
  | e :: es' => match dstep s e with
                | Some (s', o) => match drun s' es' with Some (s'', tr) => Some (s'', map (pair (x_now s)) o ++ tr) | None => None end
                | None => None
                end
  end.
