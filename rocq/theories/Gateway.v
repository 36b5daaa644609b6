(** The gateway: zipgateway.py ZIPGateway.  It is itself a connection (Conn.v) and opens one connection per node, each of them
    a machine of Conn.v, so datagrams, acknowledgements, time outs and waiting sessions are those of the connections.

    A coroutine that awaits another one runs in the same asyncio task: a gateway task is a stack of frames, one per coroutine
    that is suspended at an await, innermost first, and what the innermost one waits for.  When that ends, the frames are
    resumed one after the other without interruption.

    Not modelled: the psk, log output, closing of connections.  A node's entry in [_nodes] is [{}] or [{"ip": x}]; only
    [entry.get("ip")] is ever used, so an entry is that value, [VNone] for [{}]. *)
From Coq Require Import String ZArith List Bool.
From Verif Require Import Py Schema Registry Codec Waiter Conn.
Import ListNotations.
Open Scope list_scope.
Open Scope string_scope.
Open Scope list_scope.
Open Scope Z_scope.

(** ** Network management requests (l.34-93, l.108-147, l.166-179, l.206-245) *)
Inductive nmreq :=
| NmAdd (tx : Z)                                  (* addNode *)
| NmDsk (accept : bool) (len : Z) (dsk : val)     (* addNodeDSKSet *)
| NmKeys (csa accept : bool) (keys : Z)           (* addNodeKeysSet *)
| NmAddStop                                       (* addNodeStop *)
| NmFailed                                        (* getFailedNodeList *)
| NmEndPoints (n : Z)                             (* getMultiChannelEndPoints *)
| NmCapability (n e : Z)                          (* getMultiChannelCapability *)
| NmInfo (n : Z)                                  (* getNodeInfo *)
| NmRemoveFailed (n : Z)                          (* removeFailedNode *)
| NmRemove                                        (* removeNode *)
| NmRemoveStop.                                   (* removeNodeStop *)
(** the command, for sequence number [k] *)
Definition nm_msg (q : nmreq) (k : Z) : res val :=
  match q with
  | NmAdd tx => new_msg m_NetworkManagementInclusion_NodeAdd [("seqNo", VInt k); ("mode", VInt 7); ("txOptions", VInt tx)]
  | NmDsk a len dsk => new_msg m_NetworkManagementInclusion_NodeAddDSKSet [("seqNo", VInt k); ("accept", VBool a); ("inputDSKLength", VInt len); ("dsk", dsk)]
  | NmKeys c a keys => new_msg m_NetworkManagementInclusion_NodeAddKeysSet [("seqNo", VInt k); ("grantCSA", VBool c); ("accept", VBool a); ("grantedKeys", VInt keys)]
  | NmAddStop => new_msg m_NetworkManagementInclusion_NodeAdd [("seqNo", VInt k); ("mode", VInt 5); ("txOptions", VInt 0)]
  | NmFailed => new_msg m_NetworkManagementProxy_FailedNodeListGet [("seqNo", VInt k)]
  | NmEndPoints n => new_msg m_NetworkManagementProxy_MultiChannelEndPointGet [("seqNo", VInt k); ("nodeID", VInt n)]
  | NmCapability n e => new_msg m_NetworkManagementProxy_MultiChannelCapabilityGet [("seqNo", VInt k); ("nodeID", VInt n); ("endPoint", VInt e)]
  | NmInfo n => new_msg m_NetworkManagementProxy_NodeInfoCachedGet [("seqNo", VInt k); ("maxAge", VInt 15); ("nodeID", VInt n)]
  | NmRemoveFailed n => new_msg m_NetworkManagementInclusion_FailedNodeRemove [("seqNo", VInt k); ("nodeID", VInt n)]
  | NmRemove => new_msg m_NetworkManagementInclusion_NodeRemove [("seqNo", VInt k); ("mode", VInt 1)]
  | NmRemoveStop => new_msg m_NetworkManagementInclusion_NodeRemove [("seqNo", VInt k); ("mode", VInt 5)]
  end.
(** the report it waits for, and how long *)
Definition nm_wait (q : nmreq) : option (schema * Z) :=
  match q with
  | NmFailed => Some (m_NetworkManagementProxy_FailedNodeListReport, 3000)
  | NmEndPoints _ => Some (m_NetworkManagementProxy_MultiChannelEndPointReport, 3000)
  | NmCapability _ _ => Some (m_NetworkManagementProxy_MultiChannelCapabilityReport, 3000)
  | NmInfo _ => Some (m_NetworkManagementProxy_NodeInfoCachedReport, 3000)
  | NmRemoveFailed _ => Some (m_NetworkManagementInclusion_FailedNodeRemoveStatus, 10000)
  | _ => None
  end.
(** what the method returns for a report (or for the result of send) *)
Definition nm_result (q : nmreq) (v : val) : res val :=
  match q with
  | NmFailed => Ok (getattr v "failedNodeList")
  | NmEndPoints _ =>
      match getattr v "individualEndPoints", getattr v "aggregatedEndPoints" with
      | VU _ a, VU _ b => Ok (VInt (a + b))
      | _, _ => Err EType
      end
  | NmCapability _ _ | NmInfo _ => Ok v
  | NmRemoveFailed _ => Ok (getattr v "status")
  | _ => Ok (VBool true)
  end.
(** and after a TimeoutError *)
Definition nm_default (q : nmreq) : val :=
  match q with
  | NmFailed => VNodeList []
  | NmEndPoints _ => VInt 0
  | NmCapability _ _ => VObj (CMsg m_NetworkManagementProxy_MultiChannelCapabilityReport) []
  | NmInfo _ => VObj (CMsg m_NetworkManagementProxy_NodeInfoCachedReport) []
  | NmRemoveFailed _ => VInt 2
  | _ => VBool false
  end.

(** ** State *)
Inductive gcall :=
| GNm (q : nmreq)
| GList                                              (* getNodeList *)
| GIp (n : Z)                                        (* ipOfNode *)
| GLinkTo (n : Z)                                    (* connectToNode *)
| GSendTo (n : Z) (cmd : val) (sep dep tmo : Z)      (* sendToNode; the keyword arguments of send *)
| GReport (nodes : val)                              (* __handleNodeListReport__, started by an unsolicited report *)
| GMode (mode tmo : Z)                               (* setGatewayMode *)
| GConnect.                                          (* connect *)
(** what a coroutine returns: a value or a connection *)
Inductive gval := GV (v : val) | GL (l : nat).
(** suspended coroutines *)
Inductive frame :=
| FIp (n : Z)                             (* l.203: ipOfNode in waitForMessage *)
| FLink (n : Z)                           (* l.100: connectToNode in ipOfNode *)
| FOpen (n : Z) (l : nat)                 (* l.104: connectToNode in connection.connect *)
| FSendTo (cmd : val) (sep dep tmo : Z)   (* l.296: sendToNode in connectToNode *)
| FReport (n : Z) (rest : list Z)         (* l.196: in ipOfNode(n), [rest] not looked at yet *)
| FMode (mode : Z)                        (* l.302: in sendAndReceive *)
| FModeSet                                (* l.308: in send *)
| FList                                   (* l.156: in sendAndReceive *)
| FNm (q : nmreq)
| FConnect1 | FConnect2                   (* l.91, l.92: connect in super().connect and in setGatewayMode *)
| FListen | FDest | FSetup | FSetupIp (n : Z) (rest : list Z).   (* l.322, l.323, l.330, l.332 setupUnsolicitedConnection *)
(** what the innermost coroutine waits for *)
Inductive await :=
| AwCall (l : option nat) (u : nat)       (* call [u] on node connection [l], or on the gateway's own connection *)
| AwOpen (l : option nat)                 (* a socket being opened *)
| AwListen.                               (* the unsolicited socket being opened *)
Inductive gpc := GWait (w : await) (fs : list frame) | GDone (r : res gval).
Record gtask := mkGT { gt_call : gcall; gt_pc : gpc }.
(** everything but the tasks: own connection, _nmSeq, _nodeId, _nodes, _connections and all node connections created *)
Record gdata := mkD { d_c : conn; d_nm : Z; d_ctl : val; d_nodes : list (Z * val); d_conns : list (Z * nat); d_links : list conn }.
Record gw := mkG { g_d : gdata; g_tasks : list gtask }.
Definition gw0 : gw := mkG (mkD conn0 0 VNone [] [] []) [].        (* l.26-32 *)

Inductive gobs :=
| GAt (l : option nat) (o : obs)                       (* an observation on a connection *)
| GCalled (t : nat) (c : gcall)
| GSub (t : nat) (l : option nat) (u : nat) (c : call) (* task [t] makes call [u] on a connection *)
| GBack (t : nat) (w : await) (r : res gval)           (* what task [t] waited for ended *)
| GAsk (t : nat) (n : Z) (bs : list Z) (sent : bool)   (* a solicitation for node [n] is written, if the socket is open *)
| GFound (t : nat) (n : Z) (ip : val)                  (* ipOfNode(n) returns *)
| GNew (t : nat) (l : nat) (n : Z) (ip : Z)            (* a connection is created for node [n] *)
| GTold (l : option nat) (n : Z) (ep cmd flags : val)  (* speak("messageReceived", ...); None: unsolicited *)
| GLost (l : option nat) (cmd : val)                   (* message from an unknown sender *)
| GUpdated (t : nat)                                   (* speak("nodeListUpdated") *)
| GPacket (bs : list Z) (addr : option Z)              (* a datagram on the unsolicited socket *)
| GReply (bs : list Z) (addr : Z)                      (* answered *)
| GErr (e : exn)                                       (* onUnsolicitedMessage raised into the event loop *)
| GRet (t : nat) (r : res gval).

Definition set_c (c : conn) (d : gdata) : gdata := mkD c (d_nm d) (d_ctl d) (d_nodes d) (d_conns d) (d_links d).
Definition set_nm (n : Z) (d : gdata) : gdata := mkD (d_c d) n (d_ctl d) (d_nodes d) (d_conns d) (d_links d).
Definition set_ctl (v : val) (d : gdata) : gdata := mkD (d_c d) (d_nm d) v (d_nodes d) (d_conns d) (d_links d).
Definition set_nodes (x : list (Z * val)) (d : gdata) : gdata := mkD (d_c d) (d_nm d) (d_ctl d) x (d_conns d) (d_links d).
Definition set_conns (x : list (Z * nat)) (d : gdata) : gdata := mkD (d_c d) (d_nm d) (d_ctl d) (d_nodes d) x (d_links d).
Definition set_links (x : list conn) (d : gdata) : gdata := mkD (d_c d) (d_nm d) (d_ctl d) (d_nodes d) (d_conns d) x.
Definition conn_at (l : option nat) (d : gdata) : option conn := match l with None => Some (d_c d) | Some i => nth_error (d_links d) i end.
Definition set_conn (l : option nat) (c : conn) (d : gdata) : gdata := match l with None => set_c c d | Some i => set_links (upd i c (d_links d)) d end.

(** ** Coroutines: run until the next await *)
Inductive act := ARet (r : res gval) | AWait (w : await) (fs : list frame).
Definition go : Type := gdata * list gobs * act.
Definition ret (r : res gval) (d : gdata) : go := (d, [], ARet r).
Definition of_result (r : result) : res gval := match r with RBool b => Ok (GV (VBool b)) | RMsg m => Ok (GV m) | RExc e => Err e end.

(** a call on a connection; when it fails at once the frame waiting for it is resumed in [unwind] *)
Definition sub (t : nat) (l : option nat) (c : call) (d : gdata) : go :=
  match conn_at l d with
  | None => ret (Err EUnmodelled) d        (* connections are never removed *)
  | Some k =>
      let u := length (c_tasks k) in
      match step k (EvCall c) with
      | None => ret (Err EUnmodelled) d
      | Some (k', os) =>
          (set_conn l k' d, GSub t l u c :: map (GAt l) os,
           match nth_error (c_tasks k') u with Some (mkT _ (PDone r)) => ARet (of_result r) | _ => AWait (AwCall l u) [] end)
      end
  end.

Section Gateway.
(** the order in which python iterates over a set, given the order in which its elements were added *)
Variable ord : list Z -> list Z.

(** l.199-204 ipOfNode up to the await *)
Definition adv_hid : Z := s_hid m_ZipND_ZipNodeAdvertisement.
Definition solicit (n : Z) : res (list Z) :=
  do m <- new_msg m_ZipND_ZipInvNodeSolicitation [("local", VBool false); ("nodeId", VInt n)]; compose m.
Definition start_ip (t : nat) (n : Z) (d : gdata) : go :=
  match solicit n with
  | Err e => ret (Err e) d
  | Ok bs =>
      match sub t None (CWait adv_hid 3000) d with
      | (d', os, AWait w fs) => (d', GAsk t n bs (c_up (d_c d)) :: os, AWait w (fs ++ [FIp n]))
      | (d', os, ARet r) => (d', GAsk t n bs (c_up (d_c d)) :: os, ARet r)
      end
  end.
(** [f(); frames] : start something whose result the frames wait for *)
Definition under (g : go) (fs : list frame) (k : res gval -> gdata -> go) : go :=
  match g with
  | (d, os, AWait w gs) => (d, os, AWait w (gs ++ fs))
  | (d, os, ARet r) => match k r d with (d', os', a) => (d', os ++ os', a) end
  end.

(** l.191-197, from the next node on *)
Fixpoint report_loop (t : nat) (nodes : list Z) (d : gdata) : go :=
  match nodes with
  | [] => (d, [GUpdated t], ARet (Ok (GV VNone)))
  | n :: rest =>
      if dmem Z.eqb n (d_nodes d) then report_loop t rest d
      else under (start_ip t n d) [FReport n rest]
             (fun r d => match r with Err e => ret (Err e) d | Ok _ => ret (Err EUnmodelled) d end)   (* ipOfNode returns at once only to raise *)
  end.
(** l.181-197 __handleNodeListReport__; iterating over or looking into None is a TypeError *)
Definition start_report (t : nat) (nodes : val) (d : gdata) : go :=
  match nodes with
  | VNodeList l => report_loop t (ord l) (set_nodes (filter (fun e => existsb (Z.eqb (fst e)) l) (d_nodes d)) d)
  | _ => ret (Err EType) d
  end.

(** l.299-312 setGatewayMode *)
Definition start_mode (t : nat) (mode tmo : Z) (d : gdata) : go :=
  match sub t None (CSendRecv (VObj (CMsg m_ZipGateway_GatewayModeGet) []) 0 0 (s_hid m_ZipGateway_GatewayModeReport) tmo) d with
  | (d', os, AWait w fs) => (d', os, AWait w (fs ++ [FMode mode]))
  | g => g
  end.
Definition is_mode (rep : val) (mode : Z) : bool := match getattr rep "mode" with VI _ _ z => z =? mode | _ => false end.

(** l.149-164 getNodeList *)
Definition start_list (t : nat) (d : gdata) : go :=
  match d_nodes d with
  | _ :: _ => ret (Ok (GV (VNodeList (map fst (d_nodes d))))) d
  | [] =>
      let k := d_nm d + 1 in
      let d := set_nm k d in
      match new_msg m_NetworkManagementProxy_NodeListGet [("seqNo", VInt k)] with
      | Err e => ret (Err e) d
      | Ok m => match sub t None (CSendRecv m 0 0 (s_hid m_NetworkManagementProxy_NodeListReport) 3000) d with
                | (d', os, AWait w fs) => (d', os, AWait w (fs ++ [FList]))
                | g => g            (* sendAndReceive raises something else than TimeoutError *)
                end
      end
  end.
Definition start_nm (t : nat) (q : nmreq) (d : gdata) : go :=
  let k := d_nm d + 1 in
  let d := set_nm k d in
  match nm_msg q k with
  | Err e => ret (Err e) d
  | Ok m =>
      let c := match nm_wait q with Some (s, tmo) => CSendRecv m 0 0 (s_hid s) tmo | None => CSend m 0 0 3000 end in
      match sub t None c d with
      | (d', os, AWait w fs) => (d', os, AWait w (fs ++ [FNm q]))
      | g => g
      end
  end.

(** l.95-106 connectToNode and l.295-297 sendToNode *)
Definition start_link (t : nat) (n : Z) (d : gdata) : go :=
  match dget Z.eqb n (d_conns d) with
  | Some l => ret (Ok (GL l)) d
  | None => under (start_ip t n d) [FLink n] ret
  end.
Definition new_conn (d : gdata) : conn := mkC (c_now (d_c d)) false None 0 [] [] waiter0 [].
Definition send_over (t : nat) (l : nat) (cmd : val) (sep dep tmo : Z) (d : gdata) : go := sub t (Some l) (CSend cmd sep dep tmo) d.

(** l.317-332, from the next node on *)
Fixpoint setup_loop (t : nat) (nodes : list Z) (d : gdata) : go :=
  match nodes with
  | [] => ret (Ok (GV VNone)) d
  | n :: rest =>
      match dget Z.eqb n (d_nodes d) with
      | None => ret (Err EKey) d
      | Some ip => if truthy ip then setup_loop t rest d
                   else under (start_ip t n d) [FSetupIp n rest] (fun r d => match r with Err e => ret (Err e) d | Ok _ => ret (Err EUnmodelled) d end)
      end
  end.
Definition setup_nodes (t : nat) (r : res gval) (d : gdata) : go :=
  match r with
  | Ok (GV (VNodeList l)) => setup_loop t (ord l) d
  | Ok _ => ret (Err EType) d
  | Err e => ret (Err e) d
  end.
(** l.323-328: ::ffff:c0a8:31, port 4123 *)
Definition dest_msg : val := VObj (CMsg m_ZipGateway_UnsolicitedDestinationSet) [("unsolicitedIPv6Destination", VIPv6 281473913978929); ("port", VI false 2 4123)].

(** a frame is resumed with the result of what it awaited *)
Definition frame_step (t : nat) (f : frame) (r : res gval) (d : gdata) : go :=
  match f, r with
  | FIp n, Ok (GV m) => (d, [GFound t n (getattr m "ipv6")], ARet (Ok (GV (getattr m "ipv6"))))
  | FLink n, Ok (GV (VIPv6 a)) =>
      let l := length (d_links d) in
      (set_links (d_links d ++ [new_conn d]) d, [GNew t l n a], AWait (AwOpen (Some l)) [FOpen n l])
  | FLink n, Ok (GV _) => ret (Err EAttribute) d                  (* None.compressed *)
  | FOpen n l, Ok _ => ret (Ok (GL l)) (set_conns (dset Z.eqb n l (d_conns d)) d)
  | FSendTo cmd sep dep tmo, Ok (GL l) => send_over t l cmd sep dep tmo d
  | FReport n rest, Ok (GV ip) => report_loop t rest (set_nodes (dset Z.eqb n ip (d_nodes d)) d)
  | FMode mode, Ok (GV rep) =>
      if is_mode rep mode then ret (Ok (GV (VBool true))) d
      else under (match new_msg m_ZipGateway_GatewayModeSet [("mode", VInt mode)] with Ok m => sub t None (CSend m 0 0 3000) d | Err e => ret (Err e) d end)
             [FModeSet] ret
  | FModeSet, Ok _ => ret (Ok (GV (VBool true))) d
  | FMode _, Err ETimeout | FModeSet, Err ETimeout => ret (Ok (GV (VBool false))) d
  | FList, Ok (GV rep) =>
      let d := set_ctl (getattr rep "nodeListControllerId") d in
      match getattr rep "nodes" with
      | VNodeList l => ret (Ok (GV (VNodeList l))) (set_nodes (map (fun x => (x, VNone)) (ord l)) d)
      | _ => ret (Err EType) d
      end
  | FList, Err ETimeout => ret (Ok (GV (VNodeList []))) d
  | FNm q, Ok (GV v) => ret (match nm_result q v with Ok x => Ok (GV x) | Err e => Err e end) d
  | FNm q, Err ETimeout => ret (Ok (GV (nm_default q))) d
  | FConnect1, Ok _ => under (start_mode t 1 3000 d) [FConnect2] (fun r d => match r with Ok _ => (d, [], AWait AwListen [FListen]) | Err e => ret (Err e) d end)
  | FConnect2, Ok _ => (d, [], AWait AwListen [FListen])
  | FListen, Ok _ => under (sub t None (CSend dest_msg 0 0 3000) d) [FDest] ret
  | FDest, Ok _ => under (start_list t d) [FSetup] (setup_nodes t)
  | FSetup, r => setup_nodes t r d
  | FSetupIp n rest, Ok (GV ip) => setup_loop t rest (set_nodes (dset Z.eqb n ip (d_nodes d)) d)
  | _, Err e => ret (Err e) d
  | _, Ok _ => ret (Err EUnmodelled) d
  end.
Fixpoint unwind (t : nat) (r : res gval) (fs : list frame) (d : gdata) : go :=
  match fs with
  | [] => ret r d
  | f :: fs' =>
      match frame_step t f r d with
      | (d', os, AWait w gs) => (d', os, AWait w (gs ++ fs'))
      | (d', os, ARet r') => match unwind t r' fs' d' with (d'', os', a) => (d'', os ++ os', a) end
      end
  end.
(** the start of a call *)
Definition start (t : nat) (c : gcall) (d : gdata) : go :=
  match c with
  | GNm q => start_nm t q d
  | GList => start_list t d
  | GIp n => start_ip t n d
  | GLinkTo n => start_link t n d
  | GSendTo n cmd sep dep tmo =>
      under (start_link t n d) [FSendTo cmd sep dep tmo]
        (fun r d => match r with Ok (GL l) => send_over t l cmd sep dep tmo d | Ok _ => ret (Err EUnmodelled) d | Err e => ret (Err e) d end)
  | GReport nodes => start_report t nodes d
  | GMode mode tmo => start_mode t mode tmo d
  | GConnect => (d, [], AWait (AwOpen None) [FConnect1])
  end.

(** ** Incoming messages *)
(** l.247-259 onMessageReceived, on node connection [l] *)
Definition node_of (l : nat) (conns : list (Z * nat)) : option Z :=
  match find (fun e => Nat.eqb (snd e) l) conns with Some (n, _) => Some n | None => None end.
Definition heard (l : nat) (m : val) (d : gdata) : gobs :=
  let zip := is_msg m_Zip_ZipPacket m in
  let ep := if zip then getattr m "sourceEP" else VInt 0 in
  let m := if zip then getattr m "command" else m in
  match node_of l (d_conns d) with
  | Some n => GTold (Some l) n ep m (VInt 0)
  | None => GLost (Some l) m
  end.
(** what is spoken on a node connection is heard by the gateway *)
Definition lift (l : option nat) (d : gdata) (o : obs) : list gobs :=
  GAt l o :: match l, o with Some i, OHeard m => [heard i m d] | _, _ => [] end.

(** l.261-293 onUnsolicitedMessage; [addr] is the sender's address, None if it is not an IPv6 address.
    The result says whether the handling of a node list is to be started. *)
Definition from_ip (a : Z) (nodes : list (Z * val)) : option Z :=
  match find (fun e => match snd e with VIPv6 z => z =? a | _ => false end) nodes with Some (n, _) => Some n | None => None end.
Definition unsolicited (bs : list Z) (addr : option Z) (d : gdata) : list gobs * option val :=
  match decode bs with
  | Err e => ([GErr e], None)
  | Ok m =>
      match addr with
      | None => ([GErr EValue], None)
      | Some a =>
          let cmd := getattr m "command" in
          if is_msg m_NetworkManagementProxy_NodeListReport cmd then ([], Some (getattr cmd "nodes"))
          else match from_ip a (d_nodes d) with
               | None => ([GLost None cmd], None)
               | Some n =>
                   let told := GTold None n (getattr m "sourceEP") cmd (getattr m "headerExtension") in
                   if truthy (getattr m "ackRequest") then
                     if is_msg m_Zip_ZipPacket m then
                       match (do a <- zip_response m true false false false; compose a) with
                       | Ok rs => ([GReply rs a; told], None)
                       | Err e => ([GErr e], None)
                       end
                     else ([GErr EType], None)          (* None(success=True) *)
                   else ([told], None)
               end
      end
  end.

(** ** Steps *)
Inductive gevent :=
| GAdvance (dt : Z)
| GCall (c : gcall)                                (* a user's call *)
| GConn (l : option nat) (e : event)               (* something happens on a connection *)
| GEnv (t : nat) (r : res unit)                    (* the socket task [t] waits for is open, or opening it failed *)
| GUnsol (bs : list Z) (addr : option Z).          (* a datagram on the unsolicited socket *)

Definition set_pc (t : nat) (a : act) (s : list gtask) : list gtask :=
  match nth_error s t with
  | Some x => upd t (mkGT (gt_call x) (match a with ARet r => GDone r | AWait w fs => GWait w fs end)) s
  | None => s
  end.
Definition said (t : nat) (a : act) : list gobs := match a with ARet r => [GRet t r] | AWait _ _ => [] end.
(** a new task *)
Definition spawn (c : gcall) (s : gw) : gw * list gobs :=
  let t := length (g_tasks s) in
  match start t c (g_d s) with
  | (d, os, a) => (mkG d (set_pc t a (g_tasks s ++ [mkGT c (GDone (Err EUnmodelled))])), GCalled t c :: os ++ said t a)
  end.
(** task [t] gets what it waited for *)
Definition wake (t : nat) (w : await) (r : res gval) (fs : list frame) (s : gw) : gw * list gobs :=
  match unwind t r fs (g_d s) with
  | (d, os, a) => (mkG d (set_pc t a (g_tasks s)), GBack t w r :: os ++ said t a)
  end.
(** the task that waits for call [u] on connection [l] *)
Definition waits_for (l : option nat) (u : nat) (x : gtask) : bool :=
  match gt_pc x with
  | GWait (AwCall l' u') _ => match l, l' with None, None => true | Some a, Some b => Nat.eqb a b | _, _ => false end && Nat.eqb u u'
  | _ => false
  end.
Fixpoint waiter_of (l : option nat) (u : nat) (i : nat) (ts : list gtask) : option (nat * list frame) :=
  match ts with
  | [] => None
  | x :: ts' => if waits_for l u x then match gt_pc x with GWait _ fs => Some (i, fs) | _ => None end else waiter_of l u (S i) ts'
  end.
Definition returned (os : list obs) : option (nat * result) :=
  match find (fun o => match o with ORet _ _ => true | _ => false end) os with Some (ORet u r) => Some (u, r) | _ => None end.
Definition tick (dt : Z) (c : conn) : conn := match step c (EvAdvance dt) with Some (c', _) => c' | None => c end.

Definition gstep (s : gw) (e : gevent) : option (gw * list gobs) :=
  let d := g_d s in
  match e with
  | GAdvance dt => if 0 <=? dt then Some (mkG (mkD (tick dt (d_c d)) (d_nm d) (d_ctl d) (d_nodes d) (d_conns d) (map (tick dt) (d_links d))) (g_tasks s), []) else None
  | GCall c => match c with GReport _ => None | _ => Some (spawn c s) end
  | GConn l e =>
      match e with
      | EvAdvance _ | EvConnect => None
      | _ =>
          match conn_at l d with
          | None => None
          | Some k =>
              match step k e with
              | None => None
              | Some (k', os) =>
                  let s1 := mkG (set_conn l k' d) (g_tasks s) in
                  let os1 := flat_map (lift l d) os in
                  match returned os with
                  | None => Some (s1, os1)
                  | Some (u, r) =>
                      match waiter_of l u 0 (g_tasks s) with
                      | None => Some (s1, os1)
                      | Some (t, fs) => let (s2, os2) := wake t (AwCall l u) (of_result r) fs s1 in Some (s2, os1 ++ os2)
                      end
                  end
              end
          end
      end
  | GEnv t r =>
      match nth_error (g_tasks s) t with
      | Some (mkGT _ (GWait w fs)) =>
          match w with
          | AwOpen l =>
              match conn_at l d with
              | None => None
              | Some k =>
                  let d' := match r, step k EvConnect with Ok _, Some (k', _) => set_conn l k' d | _, _ => d end in
                  Some (wake t w (match r with Ok _ => Ok (GV VNone) | Err e => Err e end) fs (mkG d' (g_tasks s)))
              end
          | AwListen => Some (wake t w (match r with Ok _ => Ok (GV VNone) | Err e => Err e end) fs s)
          | AwCall _ _ => None
          end
      | _ => None
      end
  | GUnsol bs addr =>
      if forallb is_byte bs then
        match unsolicited bs addr d with
        | (os, None) => Some (s, GPacket bs addr :: os)
        | (os, Some nodes) => let (s', os') := spawn (GReport nodes) s in Some (s', GPacket bs addr :: os ++ os')
        end
      else None
  end.

Definition gstamp (n : Z) (os : list gobs) : list (Z * gobs) := map (pair n) os.
Definition g_now (s : gw) : Z := c_now (d_c (g_d s)).
Inductive gexec (s0 : gw) : list gevent -> gw -> list (Z * gobs) -> Prop :=
| GX_nil : gexec s0 [] s0 []
| GX_snoc es s tr e s' os : gexec s0 es s tr -> gstep s e = Some (s', os) -> gexec s0 (es ++ [e]) s' (tr ++ gstamp (g_now s) os).
Fixpoint grun (s : gw) (es : list gevent) : option (gw * list (Z * gobs)) :=
  match es with
  | [] => Some (s, [])
  | e :: es' => match gstep s e with
                | Some (s', os) => match grun s' es' with Some (s'', tr) => Some (s'', gstamp (g_now s) os ++ tr) | None => None end
                | None => None
                end
  end.
End Gateway.
