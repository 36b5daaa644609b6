(** Configuration.py: reads of parameters on a running node.  A read is a request of the node (NodeReq.v) and runs in a task of its own; reads may overlap
    each other and other users of the node.  Reports are kept as in CmdClass.v.
    Simplifications: nobody else changes the table of parameters; the node supports the class. *)
From Coq Require Import String ZArith List Bool.
From Verif Require Import Py Schema Registry Codec Waiter Conn NodeReq NodeM CmdClass.
From Verif Require AssocM.
Import ListNotations.
Open Scope list_scope.
Open Scope string_scope.
Open Scope list_scope.
Open Scope Z_scope.

Inductive cpc := CSusp (u : nat) | CEnd (r : res val).        (* waiting for request [u] of the node, l.138 *)
Record crun := mkCR { c_net : nstate; c_pars : parameters; c_tasks : list cpc }.
Inductive cobs :=
| CONet (o : nobs)
| COCall (t : nat) (k : Z) (cached : bool)
| COAsk (t u : nat) (q : val)
| CODone (t : nat) (r : res val).
Inductive cevent :=
| CNet (e : nevent)                     (* messages, time, and requests of others *)
| CGet (k : Z) (cached : bool).         (* get(k, cached) *)

Definition ctask (t : nat) (p : cpc) (s : crun) : crun := mkCR (c_net s) (c_pars s) (upd t p (c_tasks s)).
(** the task that awaits request [u] *)
Fixpoint asker (u t : nat) (ts : list cpc) : option nat :=
  match ts with
  | [] => None
  | CSusp u' :: ts' => if Nat.eqb u' u then Some t else asker u (S t) ts'
  | _ :: ts' => asker u (S t) ts'
  end.
(** node.py l.161-171, commandclass/__init__.py l.52-66 (handlers are found by message number), Configuration.py l.125-132: a report is kept, whether or not a request took it; if the waiters raise it gets no further *)
Definition noted (os : list nobs) (ps : parameters) : parameters :=
  match os with
  | [NRecv m (Ok _)] => if hid m =? s_hid m_Configuration_Report then fst (cfg_report m ps) else ps
  | _ => ps
  end.
(** l.134-139; the request is over with [r] *)
Definition read_value (r : result) : res val := do m <- AssocM.value_of r; Ok (getattr m "value").
Definition cstep (s : crun) (e : cevent) : option (crun * list cobs) :=
  match e with
  | CNet e =>
      match nstep (c_net s) e with
      | None => None
      | Some (n, os) =>
          let s := mkCR n (noted os (c_pars s)) (c_tasks s) in
          Some (match AssocM.returned os with
                | Some (u, r) => match asker u 0 (c_tasks s) with
                                 | Some t => (ctask t (CEnd (read_value r)) s, map CONet os ++ [CODone t (read_value r)])
                                 | None => (s, map CONet os)
                                 end
                | None => (s, map CONet os)
                end)
      end
  | CGet k cached =>
      let t := List.length (c_tasks s) in
      let fin r := Some (mkCR (c_net s) (c_pars s) (c_tasks s ++ [CEnd r]), [COCall t k cached; CODone t r]) in
      match (if cached then dget Z.eqb k (c_pars s) else None) with
      | Some (v, _) => fin (Ok (VInt v))
      | None =>
          match new_msg m_Configuration_Get [("parameterNumber", VInt k)] with
          | Err e => fin (Err e)
          | Ok q =>
              let u := List.length (n_tasks (c_net s)) in
              match nstep (c_net s) (NEvCall (NReq (s_hid m_Configuration_Report) 3000)) with
              | Some (n, os) => Some (mkCR n (c_pars s) (c_tasks s ++ [CSusp u]), COCall t k cached :: COAsk t u q :: map CONet os)
              | None => None       (* does not happen *)
              end
          end
      end
  end.
Definition cstamp (n : Z) (os : list cobs) : list (Z * cobs) := map (pair n) os.
Inductive cexec (s0 : crun) : list cevent -> crun -> list (Z * cobs) -> Prop :=
| CX_nil : cexec s0 [] s0 []
| CX_snoc es s tr e s' os : cexec s0 es s tr -> cstep s e = Some (s', os) -> cexec s0 (es ++ [e]) s' (tr ++ cstamp (n_now (c_net s)) os).
Fixpoint crun_of (s : crun) (es : list cevent) : option (crun * list (Z * cobs)) :=
  match es with
  | [] => Some (s, [])
  | e :: es' => match cstep s e with
                | None => None
                | Some (s', os) => match crun_of s' es' with None => None | Some (s'', tr) => Some (s'', cstamp (n_now (c_net s)) os ++ tr) end
                end
  end.
(** a node that has just been loaded; [ps]: the parameters that were stored *)
Definition crun0 (ps : parameters) : crun := mkCR nstate0 ps [].
