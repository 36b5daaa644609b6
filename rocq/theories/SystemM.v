(** The parts put together: a gateway (Gateway.v), the application's table of node objects (AppM.v) and every node object's requests (NodeReq.v).
    - A message the gateway speaks about (zipgateway.py l.258, l.285) is handed to Application.messageReceived, a coroutine, so handling it is a task of its own
      (util.py l.153-156) that begins some time later; here in any order.
    - Application.messageReceived hands it to a node object (application.py l.82), which unwraps supervision (node.py l.26-30) and offers it to
      its waiting requests (node.py l.164).  What handlers and listeners do then is left to the environment.
    - Node.sendAndReceive awaits Node.send, which awaits the gateway's sendToNode (node.py l.239, l.248): one task, so the end of the latter is
      the end of the former.
    The rest is as in the parts; in particular all other calls of the gateway and of the application, and the adapter's answers to the application's
    questions, are left to the environment.  Not modelled here: cancelling a node's request. *)
From Coq Require Import String ZArith List Bool.
From Verif Require Import Py Schema Registry Codec Waiter Conn Gateway NodeSendM NodeReq NodeM.
From Verif Require AppM.
Import ListNotations.
Open Scope list_scope.
Open Scope string_scope.
Open Scope list_scope.
Open Scope Z_scope.

(** the arguments of a [speak("messageReceived", ...)] whose handling has not begun *)
Record mail := mkMail { l_node : Z; l_ep : val; l_cmd : val; l_flags : val }.
(** [y_n]: the requests of node object [i] of the application's heap (AppM.a_objs); [y_sends]: which request of which object a task of the gateway belongs to *)
Record sys := mkY { y_g : gw; y_a : AppM.app; y_n : nat -> nstate; y_mail : list mail; y_sends : list (nat * (nat * nat)) }.
Definition sys0 : sys := mkY gw0 AppM.app0 (fun _ => nstate0) [] [].

Inductive yobs :=
| YG (o : gobs) | YA (o : AppM.aobs)
| YN (i : nat) (o : nobs)                            (* at node object [i] *)
| YUse (i u t : nat) (cmd : val) (stmo : Z).         (* the command [cmd] of request [u] of object [i] is sent by the gateway's task [t] *)
Inductive yevent :=
| YAdvance (dt : Z)
| YGw (e : gevent)                                   (* something happens at the gateway *)
| YApp (e : AppM.aevent)                             (* or at the application *)
| YHand (k : nat)                                    (* the handling of a message begins *)
| YCall (i : nat) (c : ncall) (cmd : val) (stmo : Z) (* a call on node object [i]; [cmd] and the time out of its sending matter for a request *)
| YNode (i : nat) (e : nevent).                      (* a timer fires or a coroutine goes on *)

Definition set_g (g : gw) (s : sys) : sys := mkY g (y_a s) (y_n s) (y_mail s) (y_sends s).
Definition set_a (a : AppM.app) (s : sys) : sys := mkY (y_g s) a (y_n s) (y_mail s) (y_sends s).
Definition set_n (i : nat) (n : nstate) (s : sys) : sys := mkY (y_g s) (y_a s) (fun j => if Nat.eqb j i then n else y_n s j) (y_mail s) (y_sends s).
Definition set_mail (l : list mail) (s : sys) : sys := mkY (y_g s) (y_a s) (y_n s) l (y_sends s).
Definition add_send (t i u : nat) (s : sys) : sys := mkY (y_g s) (y_a s) (y_n s) (y_mail s) ((t, (i, u)) :: y_sends s).

(** something happens at node object [i] *)
Definition node_go (i : nat) (e : nevent) (s : sys) : sys * list yobs :=
  match nstep (y_n s i) e with
  | Some (n, os) => (set_n i n s, map (YN i) os)
  | None => (s, [])
  end.
(** node.py l.248-249: what sendToNode returned, as the condition of [if not retval] sees it *)
Definition sent_result (r : res gval) : res bool :=
  match send_result r with Ok v => Ok (truthy v) | Err e => Err e end.
(** the requests whose sending ended *)
Fixpoint settle (os : list gobs) (s : sys) : sys * list yobs :=
  match os with
  | [] => (s, [])
  | GRet t r :: os' =>
      match dget Nat.eqb t (y_sends s) with
      | Some (i, u) =>
          let (s1, o1) := node_go i (NEvSent u (sent_result r)) s in
          let (s2, o2) := settle os' s1 in (s2, o1 ++ o2)
      | None => settle os' s
      end
  | _ :: os' => settle os' s
  end.
Definition mails (os : list gobs) : list mail :=
  flat_map (fun o => match o with GTold _ n ep c f => [mkMail n ep c f] | _ => [] end) os.
Section System.
Variable ord : list Z -> list Z.
Definition gw_go (e : gevent) (s : sys) : option (sys * list yobs) :=
  match gstep ord (y_g s) e with
  | None => None
  | Some (g, os) => let (s', os') := settle os (set_mail (y_mail s ++ mails os) (set_g g s)) in Some (s', map YG os ++ os')
  end.
(** application.py l.79: the end point as it is formatted into the key; only integers occur in keys *)
Definition ep_key (v : val) : option Z := match v with VInt z | VU _ z => Some z | _ => None end.
(** node.py l.27-30 *)
Definition unwrap (m : val) : val := if is_sup m then getattr m "command" else m.
Fixpoint handle_all (os : list AppM.aobs) (s : sys) : sys * list yobs :=
  match os with
  | [] => (s, [])
  | AppM.OHandle _ i m _ :: os' =>
      let (s1, o1) := node_go i (NEvMessage (unwrap m)) s in
      let (s2, o2) := handle_all os' s1 in (s2, o1 ++ o2)
  | _ :: os' => handle_all os' s
  end.
Fixpoint drop {A} (k : nat) (l : list A) : list A :=
  match l, k with [], _ => [] | _ :: l', O => l' | x :: l', S k' => x :: drop k' l' end.

Definition ystep (s : sys) (e : yevent) : option (sys * list yobs) :=
  match e with
  | YAdvance dt =>
      match gstep ord (y_g s) (GAdvance dt) with
      | Some (g, _) => Some (mkY g (y_a s) (fun i => match nstep (y_n s i) (NEvAdvance dt) with Some (n, _) => n | None => y_n s i end) (y_mail s) (y_sends s), [])
      | None => None
      end
  | YGw e => match e with GAdvance _ => None | _ => gw_go e s end
  | YApp e =>
      match e with
      | AppM.ECall (AppM.AMessage _ _ _ _) => None
      | _ => match AppM.astep (y_a s) e with Some (a, os) => Some (set_a a s, map YA os) | None => None end
      end
  | YHand k =>
      match nth_error (y_mail s) k with
      | None => None
      | Some x =>
          match AppM.astep (y_a s) (AppM.ECall (AppM.AMessage (l_node x) (ep_key (l_ep x)) (l_cmd x) (l_flags x))) with
          | Some (a, os) =>
              let (s', os') := handle_all os (set_mail (drop k (y_mail s)) (set_a a s)) in Some (s', map YA os ++ os')
          | None => None
          end
      end
  | YCall i c cmd stmo =>
      match nth_error (AppM.a_objs (y_a s)) i with
      | None => None
      | Some o =>
          match c with
          | NWait _ _ => Some (node_go i (NEvCall c) s)
          | NReq _ _ =>
              let u := length (n_tasks (y_n s i)) in
              let t := length (g_tasks (y_g s)) in
              let (s1, o1) := node_go i (NEvCall c) s in
              match gw_go (GCall (send_call (AppM.o_root o) (AppM.o_ep o) cmd stmo)) (add_send t i u s1) with
              | Some (s2, o2) => Some (s2, o1 ++ YUse i u t cmd stmo :: o2)
              | None => None
              end
          end
      end
  | YNode i e =>
      match e with
      | NEvTimer _ | NEvResume _ => match nstep (y_n s i) e with Some _ => Some (node_go i e s) | None => None end
      | _ => None
      end
  end.

Definition y_now (s : sys) : Z := g_now (y_g s).
Definition ystamp (n : Z) (os : list yobs) : list (Z * yobs) := map (pair n) os.
Inductive yexec (s0 : sys) : list yevent -> sys -> list (Z * yobs) -> Prop :=
| YX_nil : yexec s0 [] s0 []
| YX_snoc es s tr e s' os : yexec s0 es s tr -> ystep s e = Some (s', os) -> yexec s0 (es ++ [e]) s' (tr ++ ystamp (y_now s) os).
Fixpoint yrun (s : sys) (es : list yevent) : option (sys * list (Z * yobs)) :=
  match es with
  | [] => Some (s, [])
  | e :: es' => match ystep s e with
                | Some (s', os) => match yrun s' es' with Some (s'', tr) => Some (s'', ystamp (y_now s) os ++ tr) | None => None end
                | None => None
                end
  end.
End System.
