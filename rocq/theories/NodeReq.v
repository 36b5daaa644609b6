(** A node's own requests: node.py l.237-252 Node.send and Node.sendAndReceive over util.py l.165-203 MessageWaiter (a Node is
    a MessageWaiter, node.py l.67).  Events and the meaning of [asyncio.wait_for] as in Conn.v.
    The awaited [adapter.sendToNode] is left to the environment: it ends at any time with any answer or exception. *)
From Coq Require Import String ZArith List Bool.
From Verif Require Import Py Schema Codec Waiter Conn.
Import ListNotations.
Open Scope list_scope.
Open Scope Z_scope.

Inductive ncall :=
| NReq (h timeout : Z)       (* sendAndReceive(cmd, waitFor, timeout); h is waitFor.hid(), milliseconds *)
| NWait (h timeout : Z).     (* waitForMessage(msgType, timeout) *)
Definition ncall_hid (c : ncall) : Z := match c with NReq h _ | NWait h _ => h end.
Inductive npc :=
| NSending                                             (* awaiting self.send, l.248 *)
| NWaiting (h : Z) (f : nat) (deadline : Z) (ph : phase)  (* in waitForMessage *)
| NCancel (h : Z) (f : nat)                            (* cancelled in waitForMessage *)
| NDone (r : result).
Record ntask := mkNT { n_call : ncall; n_pc : npc }.
Record nstate := mkN { n_now : Z; n_w : waiter; n_tasks : list ntask }.
Definition nstate0 : nstate := mkN 0 waiter0 [].

Inductive nobs :=
| NCall (t : nat) (c : ncall)
| NSent (t : nat) (r : res bool)          (* the send of request t ended *)
| NRecv (m : val) (handled : res bool)    (* handleMessage, l.163: what messageReceived said *)
| NRet (t : nat) (r : result).
Inductive nevent :=
| NEvAdvance (dt : Z) | NEvCall (c : ncall) | NEvSent (t : nat) (r : res bool) | NEvMessage (m : val)
| NEvTimer (t : nat) | NEvResume (t : nat) | NEvCancel (t : nat).

Definition n_setw (w : waiter) (s : nstate) : nstate := mkN (n_now s) w (n_tasks s).
Definition n_setpc (t : nat) (p : npc) (s : nstate) : nstate :=
  match nth_error (n_tasks s) t with Some x => mkN (n_now s) (n_w s) (upd t (mkNT (n_call x) p) (n_tasks s)) | None => s end.
Definition n_finish (t : nat) (r : result) (s : nstate) : nstate * list nobs := (n_setpc t (NDone r) s, [NRet t r]).

(** util.py l.192-197: no session given, so one is added or the present one is used *)
Definition n_wait (t : nat) (h tmo : Z) (s : nstate) : nstate :=
  let (f, w) := add_session h (n_w s) in
  let s := n_setw w s in
  if 0 <? tmo then n_setpc t (NWaiting h f (n_now s + tmo) PhWaiting) s
  else match nth_error (w_futs w) f with
       | Some FPending => n_setpc t (NWaiting h f (n_now s + tmo) PhExpiring) (n_setw (cancel_fut f w) s)
       | _ => n_setpc t (NWaiting h f (n_now s + tmo) PhWaiting) s
       end.

(** util.py l.196-203 *)
Definition n_resume (t : nat) (h : Z) (f : nat) (dl : Z) (ph : phase) (s : nstate) : option (nstate * list nobs) :=
  let pop s := n_setw (pop_sess h (n_w s)) s in
  match nth_error (w_futs (n_w s)) f, ph with
  | Some (FDone m), PhWaiting | Some (FDone m), PhExpired => Some (n_finish t (RMsg m) (pop s))
  | Some FCancelled, PhWaiting | Some FCancelled, PhExpired => Some (n_finish t (RExc ECancelled) (pop s))
  | Some FPending, PhExpired => Some (n_setpc t (NWaiting h f dl PhExpiring) (n_setw (cancel_fut f (n_w s)) s), [])
  | _, PhExpiring => Some (n_finish t (RExc ETimeout) (pop s))
  | _, _ => None
  end.

Definition nstep (s : nstate) (e : nevent) : option (nstate * list nobs) :=
  match e with
  | NEvAdvance dt => if 0 <=? dt then Some (mkN (n_now s + dt) (n_w s) (n_tasks s), []) else None
  | NEvCall c =>
      let t := length (n_tasks s) in
      match c with
      | NReq h tmo =>      (* l.247: the future itself is not kept *)
          let (_, w) := add_session h (n_w s) in
          Some (mkN (n_now s) w (n_tasks s ++ [mkNT c NSending]), [NCall t c])
      | NWait h tmo => Some (n_wait t h tmo (mkN (n_now s) (n_w s) (n_tasks s ++ [mkNT c NSending])), [NCall t c])
      end
  | NEvSent t r =>
      match nth_error (n_tasks s) t with
      | Some (mkNT (NReq h tmo) NSending) =>
          match r with
          | Ok true => Some (n_wait t h tmo s, [NSent t r])                       (* l.252 *)
          | Ok false => let (s, o) := n_finish t (RExc ETimeout) s in Some (s, NSent t r :: o)   (* l.249-251 *)
          | Err e => let (s, o) := n_finish t (RExc e) s in Some (s, NSent t r :: o)
          end
      | _ => None
      end
  | NEvMessage m =>
      match m with
      | VObj _ _ => let (w, r) := message_received m (n_w s) in Some (n_setw w s, [NRecv m r])
      | _ => None
      end
  | NEvTimer t =>
      match nth_error (n_tasks s) t with
      | Some (mkNT _ (NWaiting h f dl PhWaiting)) => if dl <=? n_now s then Some (n_setpc t (NWaiting h f dl PhExpired) s, []) else None
      | _ => None
      end
  | NEvResume t =>
      match nth_error (n_tasks s) t with
      | Some (mkNT _ (NWaiting h f dl ph)) => n_resume t h f dl ph s
      | Some (mkNT _ (NCancel h f)) => Some (n_finish t (RExc ECancelled) (n_setw (pop_sess h (n_w s)) s))
      | _ => None
      end
  | NEvCancel t =>
      match nth_error (n_tasks s) t with
      | Some (mkNT _ NSending) => Some (n_finish t (RExc ECancelled) s)           (* nothing is cleaned up *)
      | Some (mkNT _ (NWaiting h f _ _)) => Some (n_setpc t (NCancel h f) (n_setw (cancel_fut f (n_w s)) s), [])
      | _ => None
      end
  end.

Definition nstamp (n : Z) (os : list nobs) : list (Z * nobs) := map (pair n) os.
Inductive nexec (s0 : nstate) : list nevent -> nstate -> list (Z * nobs) -> Prop :=
| NX_nil : nexec s0 [] s0 []
| NX_snoc es s tr e s' os : nexec s0 es s tr -> nstep s e = Some (s', os) -> nexec s0 (es ++ [e]) s' (tr ++ nstamp (n_now s) os).
Fixpoint nrun (s : nstate) (es : list nevent) : option (nstate * list (Z * nobs)) :=
  match es with
  | [] => Some (s, [])
  | e :: es' => match nstep s e with
                | Some (s', os) => match nrun s' es' with Some (s'', tr) => Some (s'', nstamp (n_now s) os ++ tr) | None => None end
                | None => None
                end
  end.
