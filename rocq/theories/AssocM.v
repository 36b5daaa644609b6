(** The interviews of two classes with tables, running at the same time: Association.py l.135-189 and SensorMultilevel.py l.175-186.  The requests run on the
    node's message waiter (NodeReq.v); interviews run in tasks of their own and may overlap each other and other users of the node.
    Simplifications: the node's list of supported classes and the version of SensorMultilevel do not change (the version is read once, at the start); nobody
    else changes the tables; the wrapper around the interviews is in InterviewM.v. *)
From Coq Require Import String ZArith List Bool.
From Verif Require Import Py Schema Registry Codec Waiter Conn NodeReq NodeM CmdClass.
Import ListNotations.
Open Scope list_scope.
Open Scope string_scope.
Open Scope list_scope.
Open Scope Z_scope.

Inductive pcall := PAssoc | PSensor (version : Z) (order : list Z -> list Z).     (* interview() of the two classes; [order]: how python goes through a set *)
(** where a coroutine waits for the answer to a request *)
Inductive pwait :=
| PGet                                             (* Association.py l.136 *)
| PGroup (i : Z) (size : nat) (rest : list Z)      (* l.140; [size]: entries when the iteration began, [rest]: keys still to come *)
| PLast                                            (* l.189 *)
| PSensors (order : list Z -> list Z)              (* SensorMultilevel.py l.179 *)
| PScale (k : Z) (rest : list Z).                  (* l.183 *)
Inductive ppc := PSusp (u : nat) (w : pwait) | PSending | PEnd (r : res unit).     (* PSending: in node.send, l.180 or l.187 *)
Record pstate := mkP { p_net : nstate; p_cls : classes; p_groups : groupings; p_types : list (Z * Z); p_tasks : list ppc }.

(** what a coroutine does next *)
Inductive pact := QAsk (q : val) (h : Z) (w : pwait) | QSend (q : val) | QRes (r : res unit).
(** l.145-156 interviewGrouping up to the await *)
Definition ask_group (c : classes) (i : Z) (w : pwait) : pact :=
  match new_msg (if supports c 142 then m_MultiChannelAssociation_MultiChannelGet else m_Association_Get) [("groupingIdentifier", VInt i)] with
  | Ok q => QAsk q (s_hid (if supports c 142 then m_MultiChannelAssociation_MultiChannelReport else m_Association_Report)) w
  | Err e => QRes (Err e)
  end.
(** l.157-161: the report [m] for group [i] *)
Definition record_group (i : Z) (m : val) (gs : groupings) : groupings * res unit :=
  match dget Z.eqb i gs, to_int (getattr m "groupingIdentifier") with
  | Some g, Ok j =>
      if j =? i then
        match to_int (getattr m "maxNodesSupported") with
        | Err e => (gs, Err e)
        | Ok mx =>
            match setattr_coerce TNodes (getattr m "nodes") with
            | Ok (VNodes l) => (dset Z.eqb i (mkG mx l) gs, Ok tt)
            | Ok _ => (dset Z.eqb i (mkG mx (g_nodes g)) gs, Err EUnmodelled)
            | Err e => (dset Z.eqb i (mkG mx (g_nodes g)) gs, Err e)
            end
        end
      else (gs, Ok tt)
  | Some _, Err _ => (gs, Ok tt)       (* None != identifier *)
  | None, _ => (gs, Err EKey)          (* does not happen: groups are never removed *)
  end.
(** l.163-189 setupLifeLine up to the await *)
Definition lifeline (c : classes) (gs : groupings) : pact :=
  if negb (supports c 94) then QRes (Ok tt)
  else match dget Z.eqb 1 gs with
       | None => QRes (Ok tt)
       | Some g =>
           if contains (g_nodes g) 1 0 then QRes (Ok tt)
           else match (if supports c 96 && supports c 142
                       then new_msg m_MultiChannelAssociation_MultiChannelSet [("groupingIdentifier", VInt 1); ("nodes", VList [VTuple [VInt 1; VInt 0]])]
                       else new_msg m_Association_Set [("groupingIdentifier", VInt 1); ("nodes", VList [VInt 1])]) with
                | Ok q => QSend q
                | Err e => QRes (Err e)
                end
       end.
(** l.138-143: the next key; python notices when the dictionary has grown since the iteration began *)
Definition next_group (c : classes) (gs : groupings) (size : nat) (rest : list Z) : pact :=
  if Nat.eqb (length gs) size then
    match rest with [] => lifeline c gs | i :: rest' => ask_group c i (PGroup i size rest') end
  else QRes (Err ERuntime).
(** SensorMultilevel.py l.182-186 *)
Definition next_scale (rest : list Z) : pact :=
  match rest with
  | [] => QRes (Ok tt)
  | k :: rest' => match new_msg m_SensorMultilevel_SupportedGetScale [("sensorType", VInt k)] with
                  | Ok q => QAsk q (s_hid m_SensorMultilevel_SupportedScaleReport) (PScale k rest')
                  | Err e => QRes (Err e)
                  end
  end.
Definition start (c : pcall) : pact :=
  match c with
  | PAssoc => match new_msg m_Association_GroupingsGet [] with Ok q => QAsk q (s_hid m_Association_GroupingsReport) PGet | Err e => QRes (Err e) end
  | PSensor v order => if v <? 5 then QRes (Ok tt)
                 else match new_msg m_SensorMultilevel_SupportedGetSensor [] with Ok q => QAsk q (s_hid m_SensorMultilevel_SupportedSensorReport) (PSensors order) | Err e => QRes (Err e) end
  end.
(** a request is over with [r] *)
Definition got (c : classes) (w : pwait) (r : res val) (gs : groupings) (ts : list (Z * Z)) : groupings * list (Z * Z) * pact :=
  match w, r with
  | PGet, Ok m =>                                                            (* l.137-140 *)
      match to_int (getattr m "supportedGroupings") with
      | Ok n => let gs := set_num_groups n gs in (gs, ts, next_group c gs (length gs) (map fst gs))
      | Err e => (gs, ts, QRes (Err e))
      end
  | PGroup i size rest, Ok m =>
      match record_group i m gs with
      | (gs, Ok _) | (gs, Err ETimeout) => (gs, ts, next_group c gs size rest)
      | (gs, Err e) => (gs, ts, QRes (Err e))
      end
  | PGroup i size rest, Err ETimeout => (gs, ts, next_group c gs size rest)  (* l.141-142 *)
  | PLast, Ok m => let (gs, x) := record_group 1 m gs in (gs, ts, QRes x)
  | PSensors order, Ok m =>
      match getattr m "bitMask" with
      | VSensors l => (gs, ts, next_scale (order l))
      | _ => (gs, ts, QRes (Err EType))                                      (* None is not iterable *)
      end
  | PScale k rest, Ok m =>
      match to_int (getattr m "scaleBitMask") with                           (* l.186 with CommandClass.py l.33-36 VarDictAttribute *)
      | Ok v => (gs, dset Z.eqb k v ts, next_scale rest)
      | Err e => (gs, ts, QRes (Err e))
      end
  | _, Err e => (gs, ts, QRes (Err e))
  end.

Inductive pobs :=
| PONet (o : nobs)
| POCall (t : nat) (c : pcall)
| POAsk (t u : nat) (q : val)            (* request number [u] of the node *)
| POSend (t : nat) (q : val)             (* Node.send *)
| POSent (t : nat) (r : res bool)
| PODone (t : nat) (r : res unit).
Inductive pevent :=
| PNet (e : nevent)                      (* messages, time, and requests of others *)
| PCall (c : pcall)
| PSent (t : nat) (r : res bool).        (* Node.send of task [t] ends *)

Definition set_task (t : nat) (p : ppc) (s : pstate) : pstate := mkP (p_net s) (p_cls s) (p_groups s) (p_types s) (upd t p (p_tasks s)).
Definition perform (t : nat) (a : pact) (s : pstate) : pstate * list pobs :=
  match a with
  | QAsk q h w =>
      let u := List.length (n_tasks (p_net s)) in
      match nstep (p_net s) (NEvCall (NReq h 3000)) with
      | Some (n, os) => (set_task t (PSusp u w) (mkP n (p_cls s) (p_groups s) (p_types s) (p_tasks s)), POAsk t u q :: map PONet os)
      | None => (set_task t (PEnd (Err EUnmodelled)) s, [PODone t (Err EUnmodelled)])       (* does not happen *)
      end
  | QSend q => (set_task t PSending s, [POSend t q])
  | QRes r => (set_task t (PEnd r) s, [PODone t r])
  end.
(** the task that awaits request [u] *)
Fixpoint waiting_for (u : nat) (t : nat) (ts : list ppc) : option (nat * pwait) :=
  match ts with
  | [] => None
  | PSusp u' w :: ts' => if Nat.eqb u' u then Some (t, w) else waiting_for u (S t) ts'
  | _ :: ts' => waiting_for u (S t) ts'
  end.
Definition returned (os : list nobs) : option (nat * result) :=
  match filter (fun o => match o with NRet _ _ => true | _ => false end) os with NRet u r :: _ => Some (u, r) | _ => None end.
Definition value_of (r : result) : res val := match r with RMsg m => Ok m | RExc e => Err e | RBool _ => Err EUnmodelled end.

Definition pstep (s : pstate) (e : pevent) : option (pstate * list pobs) :=
  match e with
  | PNet e =>
      match nstep (p_net s) e with
      | None => None
      | Some (n, os) =>
          let s := mkP n (p_cls s) (p_groups s) (p_types s) (p_tasks s) in
          Some (match returned os with
                | Some (u, r) =>
                    match waiting_for u 0 (p_tasks s) with
                    | Some (t, w) =>
                        let '(gs, ts, a) := got (p_cls s) w (value_of r) (p_groups s) (p_types s) in
                        let (s, os') := perform t a (mkP n (p_cls s) gs ts (p_tasks s)) in (s, map PONet os ++ os')
                    | None => (s, map PONet os)
                    end
                | None => (s, map PONet os)
                end)
      end
  | PCall c =>
      let t := List.length (p_tasks s) in
      let (s, os) := perform t (start c) (mkP (p_net s) (p_cls s) (p_groups s) (p_types s) (p_tasks s ++ [PEnd (Ok tt)])) in
      Some (s, POCall t c :: os)
  | PSent t r =>
      match nth_error (p_tasks s) t with
      | Some PSending =>
          let (s, os) := perform t (match r with Ok _ => ask_group (p_cls s) 1 PLast | Err e => QRes (Err e) end) s in
          Some (s, POSent t r :: os)
      | _ => None
      end
  end.
Definition pstamp (n : Z) (os : list pobs) : list (Z * pobs) := map (pair n) os.
Inductive pexec (s0 : pstate) : list pevent -> pstate -> list (Z * pobs) -> Prop :=
| PX_nil : pexec s0 [] s0 []
| PX_snoc es s tr e s' os : pexec s0 es s tr -> pstep s e = Some (s', os) -> pexec s0 (es ++ [e]) s' (tr ++ pstamp (n_now (p_net s)) os).
Fixpoint prun (s : pstate) (es : list pevent) : option (pstate * list (Z * pobs)) :=
  match es with
  | [] => Some (s, [])
  | e :: es' => match pstep s e with
                | None => None
                | Some (s', os) => match prun s' es' with None => None | Some (s'', tr) => Some (s'', pstamp (n_now (p_net s)) os ++ tr) end
                end
  end.
Definition pstate0 (c : classes) (gs : groupings) (ts : list (Z * Z)) : pstate := mkP nstate0 c gs ts [].
