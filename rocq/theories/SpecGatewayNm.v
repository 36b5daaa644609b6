(** Vocabulary for network management calls: what they send, what they wait for and what they return (Z-Wave network management
    inclusion, class 52, and proxy, class 82).  Uses none of the functions of Gateway.v. *)
From Coq Require Import String ZArith List Bool.
From Verif Require Import Py Schema Registry Codec SpecDecode Waiter Conn SpecConn Gateway SpecGateway.
Import ListNotations.
Open Scope list_scope.
Open Scope string_scope.
Open Scope list_scope.
Open Scope Z_scope.

(** the report a request asks for and how long it may take (ms); commands ask for none *)
Definition nm_report (q : nmreq) : option (Z * Z) :=
  match q with
  | NmFailed => Some (82 * 256 + 12, 3000)
  | NmEndPoints _ => Some (82 * 256 + 6, 3000)
  | NmCapability _ _ => Some (82 * 256 + 8, 3000)
  | NmInfo _ => Some (82 * 256 + 4, 3000)
  | NmRemoveFailed _ => Some (52 * 256 + 8, 10000)
  | _ => None
  end.
(** [c] is the call on the gateway's connection for [q] with sequence number [k] *)
Definition nm_asks (q : nmreq) (c : call) : Prop :=
  exists v k, (nm_valid q -> byte k -> compose v = Ok (nm_bytes q k)) /\
    c = match nm_report q with Some (h, tmo) => CSendRecv v 0 0 h tmo | None => CSend v 0 0 3000 end.
(** reading an attribute of a message: one that was not received has the default of its type, mostly None *)
Definition attribute (m : val) (x : string) : val :=
  match m with
  | VObj c d =>
      match aget x d with
      | Some v => v
      | None => match c with CMsg s => match declared x (s_attrs s) with Some t => default_of t | None => VNone end | _ => VNone end
      end
  | _ => VNone
  end.
(** what is reported: the report itself, or a field of it *)
Definition nm_value (q : nmreq) (m : val) : option val :=
  match q, m with
  | NmInfo _, _ | NmCapability _ _, _ => Some m
  | NmFailed, _ => Some (attribute m "failedNodeList")
  | NmEndPoints _, VObj _ d => match aget "individualEndPoints" d, aget "aggregatedEndPoints" d with Some (VU _ a), Some (VU _ b) => Some (VInt (a + b)) | _, _ => None end
  | NmRemoveFailed _, _ => Some (attribute m "status")
  | _, _ => None
  end.
(** what is returned if no report arrives: no nodes, no endpoints, an empty report, "failed to remove" (2) *)
Definition nm_fallback (q : nmreq) : val :=
  match q with
  | NmFailed => VNodeList []
  | NmEndPoints _ => VInt 0
  | NmCapability _ _ => VObj (CMsg m_NetworkManagementProxy_MultiChannelCapabilityReport) []
  | NmInfo _ => VObj (CMsg m_NetworkManagementProxy_NodeInfoCachedReport) []
  | NmRemoveFailed _ => VInt 2
  | _ => VBool false
  end.
(** what request [q] of task [t] does before it returns [r]; [u] is its call on the gateway's connection *)
Inductive nm_run (t : nat) (q : nmreq) : list gobs -> res gval -> Prop :=
| NR_bad e : ~ nm_valid q -> nm_run t q [] (Err e)
| NR_raise u c e : nm_asks q c -> nm_run t q [GSub t None u c] (Err e)
| NR_sent u c b : nm_asks q c -> nm_report q = None -> nm_run t q [GSub t None u c; GBack t (AwCall None u) (Ok (GV (VBool b)))] (Ok (GV (VBool true)))
| NR_report u c m r : nm_asks q c -> nm_report q = Some (hid m, reply_timeout c) -> (forall x, nm_value q m = Some x -> r = Ok (GV x)) ->
    nm_run t q [GSub t None u c; GBack t (AwCall None u) (Ok (GV m))] r
| NR_late u c : nm_asks q c -> (nm_report q = None -> ~ nm_valid q) -> nm_run t q [GSub t None u c; GBack t (AwCall None u) (Err ETimeout)] (Ok (GV (nm_fallback q)))
| NR_fail u c e : nm_asks q c -> e <> ETimeout -> nm_run t q [GSub t None u c; GBack t (AwCall None u) (Err e)] (Err e).
(** nobody else waits for reports [h]: [a] was observed before the call began, [b] until it ended *)
Definition sole (h : Z) (a b : trace) : Prop :=
  (forall n u c, In (n, OCall u c) a -> wants c = Some h -> exists n' r, In (n', ORet u r) a) /\
  (forall n u c, In (n, OCall u c) b -> wants c <> Some h).
(** the python value [v] is the number [z] *)
Definition is_number (v : val) (z : Z) : Prop :=
  match v with
  | VBool b => z = Z.b2z b
  | VInt z' | VI _ _ z' | VU _ z' | VDelay z' | VB _ z' | VF z' => z = z'
  | VFloat m p | VFloatT m p _ _ => m = z * 10 ^ p
  | _ => False
  end.
