(** Interviewing a node: node.py l.182-191 Node.interview, commandclass/CommandClass.py l.64-89 (the wrapper around every
    class's own interview), l.156-170 requestVersion, and the interviews of Version.py l.28-34, ZwavePlusInfo.py l.25-31 and
    ManufacturerSpecific.py l.23-27.  The requests run on the node's message waiter (NodeReq.v); interviews run in tasks of their own and
    may overlap each other and other users of the node.
    Simplifications: the interviews of Association, AssociationGrpInfo and SensorMultilevel are left to the environment (they end at any
    time with any result or exception; CmdClass.v and GrpInfoM.v describe them); nobody else assigns the
    attributes of the classes, and the list of supported classes is not replaced during an interview. *)
From Coq Require Import String ZArith List Bool.
From Verif Require Import Py Schema Registry Codec Waiter Conn NodeReq.
Import ListNotations.
Open Scope list_scope.
Open Scope string_scope.
Open Scope list_scope.
Open Scope Z_scope.

(** a command class object: CommandClass.py l.93-102 with the attributes of util.py l.18-33 *)
Record kcls := mkK { k_version : Z; k_interviewed : bool; k_attrs : adict }.
Definition k_new : kcls := mkK 0 false [].
(** what a class's own interview is: a request whose report is copied field by field, nothing at all (CommandClass.py l.132-139),
    or one of those left to the environment *)
Inductive body := BCopy (get report : schema) (attrs : list attr) | BNone | BEnv.
Definition v_attrs : list attr :=                                            (* Version.py l.20-26 *)
  [mkA "zwaveLibraryType" (TInt false 1) None None; mkA "zwaveProtocolVersion" (TInt false 1) None None; mkA "zwaveProtocolSubVersion" (TInt false 1) None None;
   mkA "applicationVersion" (TInt false 1) None None; mkA "applicationSubVersion" (TInt false 1) None None].
Definition z_attrs : list attr :=                                            (* ZwavePlusInfo.py l.17-23 *)
  [mkA "zwavePlusVersion" (TInt false 1) None None; mkA "roleType" (TInt false 1) None None; mkA "nodeType" (TInt false 1) None None;
   mkA "installerIconType" (TInt false 2) None None; mkA "userIconType" (TInt false 2) None None].
Definition m_attrs : list attr :=                                            (* ManufacturerSpecific.py l.17-21 *)
  [mkA "manufacturerID" (TInt false 2) None None; mkA "productTypeID" (TInt false 2) None None; mkA "productID" (TInt false 2) None None].
Definition body_of (id : Z) : body :=
  if id =? 134 then BCopy m_Version_VersionGet m_Version_VersionReport v_attrs
  else if id =? 94 then BCopy m_ZwavePlusInfo_Get m_ZwavePlusInfo_Report z_attrs
  else if id =? 114 then BCopy m_ManufacturerSpecific_Get m_ManufacturerSpecific_Report m_attrs
  else if (id =? 133) || (id =? 89) || (id =? 49) then BEnv
  else BNone.

Inductive icall := CNode | CClass (id : Z) | CVersion (id : Z).              (* Node.interview, interview and requestVersion of a class *)
Inductive ival := VVer (v : Z) | VRet (r : option bool) | VNode.
(** suspended coroutines, the innermost first *)
Inductive iframe :=
| FVersion (id : Z)        (* requestVersion in sendAndReceive, l.162 *)
| FWrap (id : Z)           (* the wrapper in requestVersion, l.73 *)
| FBody (id : Z)           (* the wrapper in the class's interview, l.82 *)
| FNode (rest : list Z).   (* Node.interview in the interview of a class, l.189; the classes still to come *)
Inductive iwait := WReq (u : nat) | WEnv.
Inductive ipc := ISusp (w : iwait) (fs : list iframe) | IEnd (r : res ival).
(** the node: its requests, the numbers of its classes in order (node.py l.81-101, 291-293), the class objects by number, and the tasks *)
Record istate := mkI { i_net : nstate; i_ids : list Z; i_cls : Z -> kcls; i_tasks : list ipc }.
Inductive iobs :=
| ONet (o : nobs)
| OCall (t : nat) (c : icall)
| OVisit (t : nat) (id : Z)              (* interview() of class [id] starts *)
| OAsk (t u : nat) (q : val)             (* request number [u] of the node *)
| OOwn (t : nat) (id : Z)                (* the class's own interview (one left to the environment) starts *)
| OUpdated (id : Z)                      (* speak("commandClassUpdated") *)
| ODone (t : nat) (r : res ival).
Inductive ievent :=
| INet (e : nevent)                      (* messages, time, and requests of others *)
| ICall (c : icall)
| IOwn (t : nat) (r : res (option bool)).

Inductive iout := XWait (w : iwait) (fs : list iframe) | XRes (r : res ival).
Definition igo := (istate * list iobs * iout)%type.
Definition set_cls (id : Z) (k : kcls) (s : istate) : istate := mkI (i_net s) (i_ids s) (fun j => if j =? id then k else i_cls s j) (i_tasks s).
Definition inote (os : list iobs) (g : igo) : igo := let '(s, os', x) := g in (s, os ++ os', x).
Definition iunder (f : iframe) (g : igo) : igo := match g with (s, os, XWait w fs) => (s, os, XWait w (fs ++ [f])) | _ => g end.

(** Node.sendAndReceive(q, report) with its default timeout *)
Definition irequest (t : nat) (q : val) (h : Z) (s : istate) : igo :=
  let u := List.length (n_tasks (i_net s)) in
  match nstep (i_net s) (NEvCall (NReq h 3000)) with
  | Some (n, os) => (mkI n (i_ids s) (i_cls s) (i_tasks s), OAsk t u q :: map ONet os, XWait (WReq u) [])
  | None => (s, [], XRes (Err EUnmodelled))        (* does not happen *)
  end.
(** CommandClass.py l.156-165; [id] is 0 for a class that is not implemented only if its number is 0 (l.226-231) *)
Definition ask_version (t : nat) (id : Z) (s : istate) : igo :=
  if id =? 0 then (s, [], XRes (Ok (VVer 0)))
  else match new_msg m_Version_VersionCommandClassGet [("requestedCommandClass", VInt id)] with
       | Err e => (s, [], XRes (Err e))
       | Ok q => iunder (FVersion id) (irequest t q (s_hid m_Version_VersionCommandClassReport) s)
       end.
(** l.166-170 *)
Definition got_version (id : Z) (r : result) (s : istate) : igo :=
  match r with
  | RMsg m =>
      match to_int (getattr m "commandClassVersion") with
      | Ok v => (set_cls id (mkK v (k_interviewed (i_cls s id)) (k_attrs (i_cls s id))) s, [OUpdated id], XRes (Ok (VVer v)))
      | Err e => (s, [], XRes (Err e))
      end
  | RExc ETimeout => (s, [], XRes (Ok (VVer 0)))
  | RExc e => (s, [], XRes (Err e))
  | RBool _ => (s, [], XRes (Err EUnmodelled))     (* does not happen *)
  end.
(** l.83-87 *)
Definition body_end (id : Z) (r : res (option bool)) (s : istate) : igo :=
  match r with
  | Err ETimeout => (s, [], XRes (Ok (VRet (Some false))))
  | Err e => (s, [], XRes (Err e))
  | Ok rv =>
      let k := i_cls s id in
      (match rv with Some false => s | _ => set_cls id (mkK (k_version k) true (k_attrs k)) s end, [OUpdated id], XRes (Ok (VRet rv)))
  end.
(** the assignments after the report, in order; the ones before a failing one have been made *)
Fixpoint copy (attrs : list attr) (todo : list attr) (m : val) (d : adict) : adict * res unit :=
  match todo with
  | [] => (d, Ok tt)
  | a :: todo' => match setattr attrs (a_name a) (getattr m (a_name a)) d with
                  | Ok (d', _) => copy attrs todo' m d'
                  | Err e => (d, Err e)
                  end
  end.
Definition got_report (id : Z) (attrs : list attr) (r : result) (s : istate) : igo :=
  match r with
  | RMsg m =>
      let k := i_cls s id in
      let (d, x) := copy attrs attrs m (k_attrs k) in
      body_end id (do _ <- x; Ok None) (set_cls id (mkK (k_version k) (k_interviewed k) d) s)
  | RExc e => body_end id (Err e) s
  | RBool _ => (s, [], XRes (Err EUnmodelled))     (* does not happen *)
  end.
(** l.74-82, once the version [v] has been determined *)
Definition start_body (t : nat) (id v : Z) (s : istate) : igo :=
  if v =? 0 then (s, [], XRes (Ok (VRet None)))
  else
    let k := i_cls s id in
    let s := set_cls id (mkK (k_version k) false (k_attrs k)) s in
    match body_of id with
    | BNone => body_end id (Ok None) s
    | BEnv => (s, [OOwn t id], XWait WEnv [FBody id])
    | BCopy get report _ =>
        match new_msg get [] with
        | Err e => body_end id (Err e) s
        | Ok q => iunder (FBody id) (irequest t q (s_hid report) s)
        end
    end.
(** l.67-73 *)
Definition start_class (t : nat) (id : Z) (s : istate) : igo :=
  inote [OVisit t id]
    (let v := k_version (i_cls s id) in
     if v =? 0 then
       match ask_version t id s with
       | (s, os, XRes (Ok (VVer v))) => inote os (start_body t id v s)
       | g => iunder (FWrap id) g
       end
     else start_body t id v s).
(** node.py l.187-191 *)
Fixpoint visit (t : nat) (rest : list Z) (s : istate) : igo :=
  match rest with
  | [] => (s, [], XRes (Ok VNode))
  | id :: rest' =>
      match start_class t id s with
      | (s, os, XWait w fs) => (s, os, XWait w (fs ++ [FNode rest']))
      | (s, os, XRes (Ok _)) | (s, os, XRes (Err ETimeout)) => inote os (visit t rest' s)
      | (s, os, XRes (Err e)) => (s, os, XRes (Err e))
      end
  end.
(** a coroutine goes on with the result of the one it awaited *)
Definition after_frame (t : nat) (f : iframe) (r : res ival) (s : istate) : igo :=
  match f, r with
  | FWrap id, Ok (VVer v) => start_body t id v s
  | FNode rest, Ok _ | FNode rest, Err ETimeout => visit t rest s
  | _, _ => (s, [], XRes (match r with Err e => Err e | Ok _ => Err EUnmodelled end))   (* the latter does not happen *)
  end.
Fixpoint unwind (t : nat) (fs : list iframe) (r : res ival) (s : istate) : igo :=
  match fs with
  | [] => (s, [], XRes r)
  | f :: fs' => match after_frame t f r s with
                | (s, os, XWait w g) => (s, os, XWait w (g ++ fs'))
                | (s, os, XRes r) => inote os (unwind t fs' r s)
                end
  end.
Definition ithen (t : nat) (fs : list iframe) (g : igo) : igo :=
  match g with (s, os, XRes r) => inote os (unwind t fs r s) | (s, os, XWait w fs') => (s, os, XWait w (fs' ++ fs)) end.
(** the request of a suspended task is over *)
Definition answered (t : nat) (fs : list iframe) (r : result) (s : istate) : igo :=
  match fs with
  | FVersion id :: fs' => ithen t fs' (got_version id r s)
  | FBody id :: fs' => match body_of id with
                       | BCopy _ _ attrs => ithen t fs' (got_report id attrs r s)
                       | _ => (s, [], XRes (Err EUnmodelled))       (* does not happen *)
                       end
  | _ => (s, [], XRes (Err EUnmodelled))                            (* does not happen *)
  end.
Definition settle (t : nat) (g : igo) : istate * list iobs :=
  match g with
  | (s, os, XWait w fs) => (mkI (i_net s) (i_ids s) (i_cls s) (upd t (ISusp w fs) (i_tasks s)), os)
  | (s, os, XRes r) => (mkI (i_net s) (i_ids s) (i_cls s) (upd t (IEnd r) (i_tasks s)), os ++ [ODone t r])
  end.
(** the task that awaits request [u] *)
Fixpoint waiting_for (u : nat) (t : nat) (ts : list ipc) : option (nat * list iframe) :=
  match ts with
  | [] => None
  | ISusp (WReq u') fs :: ts' => if Nat.eqb u' u then Some (t, fs) else waiting_for u (S t) ts'
  | _ :: ts' => waiting_for u (S t) ts'
  end.
Definition returned (os : list nobs) : option (nat * result) :=
  match filter (fun o => match o with NRet _ _ => true | _ => false end) os with NRet u r :: _ => Some (u, r) | _ => None end.

Definition istep (s : istate) (e : ievent) : option (istate * list iobs) :=
  match e with
  | INet e =>
      match nstep (i_net s) e with
      | None => None
      | Some (n, os) =>
          let s := mkI n (i_ids s) (i_cls s) (i_tasks s) in
          Some (match returned os with
                | Some (u, r) => match waiting_for u 0 (i_tasks s) with
                                 | Some (t, fs) => let (s, os') := settle t (answered t fs r s) in (s, map ONet os ++ os')
                                 | None => (s, map ONet os)
                                 end
                | None => (s, map ONet os)
                end)
      end
  | ICall c =>
      if match c with CNode => true | CClass id | CVersion id => existsb (Z.eqb id) (i_ids s) end then
      let t := List.length (i_tasks s) in
      let s := mkI (i_net s) (i_ids s) (i_cls s) (i_tasks s ++ [IEnd (Ok VNode)]) in
      let (s, os) := settle t (match c with
                               | CNode => visit t (i_ids s) s
                               | CClass id => start_class t id s
                               | CVersion id => ask_version t id s
                               end) in
      Some (s, OCall t c :: os)
      else None
  | IOwn t r =>
      match nth_error (i_tasks s) t with
      | Some (ISusp WEnv (FBody id :: fs)) => Some (settle t (ithen t fs (body_end id r s)))
      | _ => None
      end
  end.
Definition istamp (n : Z) (os : list iobs) : list (Z * iobs) := map (pair n) os.
Inductive iexec (s0 : istate) : list ievent -> istate -> list (Z * iobs) -> Prop :=
| IX_nil : iexec s0 [] s0 []
| IX_snoc es s tr e s' os : iexec s0 es s tr -> istep s e = Some (s', os) -> iexec s0 (es ++ [e]) s' (tr ++ istamp (n_now (i_net s)) os).
Fixpoint irun (s : istate) (es : list ievent) : option (istate * list (Z * iobs)) :=
  match es with
  | [] => Some (s, [])
  | e :: es' => match istep s e with
                | None => None
                | Some (s', os) => match irun s' es' with None => None | Some (s'', tr) => Some (s'', istamp (n_now (i_net s)) os ++ tr) end
                end
  end.
Definition istate0 (ids : list Z) (cls : Z -> kcls) : istate := mkI nstate0 ids cls [].
