(** Vocabulary for gateway properties: traces of observations.  Uses the event and observation types of Gateway.v but none of its functions. *)
From Coq Require Import String ZArith List Bool.
From Verif Require Import Py Schema Registry Codec Waiter Conn SpecConn Gateway.
Import ListNotations.
Open Scope list_scope.
Open Scope string_scope.
Open Scope list_scope.
Open Scope Z_scope.

Definition gtrace := list (Z * gobs).
(** the task an observation belongs to *)
Definition task_of (o : gobs) : option nat :=
  match o with
  | GCalled t _ | GSub t _ _ _ | GBack t _ _ | GAsk t _ _ _ | GFound t _ _ | GNew t _ _ _ | GUpdated t | GRet t _ => Some t
  | _ => None
  end.
Definition mine (t : nat) (o : gobs) : bool := match task_of o with Some t' => Nat.eqb t' t | None => false end.
(** what task [t] did, in order *)
Definition own (t : nat) (tr : gtrace) : list gobs := filter (mine t) (map snd tr).
(** what happened on one connection *)
Definition same_link (a b : option nat) : bool := match a, b with None, None => true | Some x, Some y => Nat.eqb x y | _, _ => false end.
Definition on_link (l : option nat) (tr : gtrace) : trace :=
  flat_map (fun e => match e with (n, GAt l' o) => if same_link l l' then [(n, o)] else [] | _ => [] end) tr.
Definition seen (tr : gtrace) (o : gobs) : Prop := exists n, In (n, o) tr.

(** ** Network management requests *)
(** what a request sends: command class and command, sequence number [k] and the parameters *)
Definition nm_bytes (q : nmreq) (k : Z) : list Z :=
  match q with
  | NmAdd tx => [52; 1; k; 0; 7; tx]
  | NmDsk acc len dsk => [52; 20; k; (if acc then 128 else 0) + len] ++ match dsk with VPBytes l => l | _ => [] end
  | NmKeys csa acc keys => [52; 18; k; (if csa then 2 else 0) + (if acc then 1 else 0); keys]
  | NmAddStop => [52; 1; k; 0; 5; 0]
  | NmFailed => [82; 11; k]
  | NmEndPoints n => [82; 5; k; n]
  | NmCapability n e => [82; 7; k; n; e]
  | NmInfo n => [82; 3; k; 15; n]
  | NmRemoveFailed n => [52; 7; k; n]
  | NmRemove => [52; 3; k; 0; 1]
  | NmRemoveStop => [52; 3; k; 0; 5]
  end.
Definition byte (z : Z) : Prop := 0 <= z < 256.
(** parameters in range *)
Definition nm_valid (q : nmreq) : Prop :=
  match q with
  | NmAdd tx => byte tx
  | NmDsk _ len dsk => 0 <= len < 16 /\ exists l, dsk = VPBytes l /\ length l = 16%nat /\ Forall byte l
  | NmKeys _ _ keys => byte keys
  | NmEndPoints n | NmInfo n | NmRemoveFailed n => byte n
  | NmCapability n e => byte n /\ 0 <= e < 128
  | _ => True
  end.
(** a network management request is made: one of the calls, or a node list is asked for *)
Definition nm_request (o : gobs) : bool :=
  match o with
  | GCalled _ (GNm _) => true
  | GSub _ None _ (CSendRecv (VObj (CMsg s) _) _ _ _ _) => (s_cls s =? 82) && (s_cmd s =? 1)
  | _ => false
  end.
Definition nm_requests (tr : gtrace) : Z := zlen (filter nm_request (map snd tr)).
(** the gateway's socket was opened *)
Definition opened (l : option nat) (tr : gtrace) : Prop := exists n t r, In (n, GBack t (AwOpen l) (Ok r)) tr.
(** a datagram is written *)
Definition gwrites (o : gobs) : bool := match o with GAt _ (OWire _ _) => true | _ => false end.

(** ** Gateway mode: class 95; set 1, get 2, report 3 *)
Definition mode_get (tmo : Z) (c : call) : Prop := exists v, compose v = Ok [95; 2] /\ c = CSendRecv v 0 0 (95 * 256 + 3) tmo.
Definition mode_set (m : Z) (c : call) : Prop := exists v, (byte m -> compose v = Ok [95; 1; m]) /\ c = CSend v 0 0 3000.
Definition mode_of (rep : val) : option Z := match rep with VObj _ d => match aget "mode" d with Some (VI _ _ z) => Some z | _ => None end | _ => None end.
(** what setGatewayMode(m, tmo) does before it returns [r]: [u], [u'] are its calls on the gateway's connection *)
Inductive mode_run (t : nat) (m tmo : Z) : list gobs -> res gval -> Prop :=
| MR_raise u c e : mode_get tmo c -> mode_run t m tmo [GSub t None u c] (Err e)
| MR_fail u c e : mode_get tmo c -> mode_run t m tmo [GSub t None u c; GBack t (AwCall None u) (Err e)] (if exn_eqb e ETimeout then Ok (GV (VBool false)) else Err e)
| MR_same u c rep : mode_get tmo c -> mode_of rep = Some m ->
    mode_run t m tmo [GSub t None u c; GBack t (AwCall None u) (Ok (GV rep))] (Ok (GV (VBool true)))
| MR_unsent u c rep u' c' e : mode_get tmo c -> mode_of rep <> Some m -> mode_set m c' ->
    mode_run t m tmo [GSub t None u c; GBack t (AwCall None u) (Ok (GV rep)); GSub t None u' c'] (Err e)
| MR_set u c rep u' c' r : mode_get tmo c -> mode_of rep <> Some m -> mode_set m c' ->
    mode_run t m tmo [GSub t None u c; GBack t (AwCall None u) (Ok (GV rep)); GSub t None u' c'; GBack t (AwCall None u') r]
      (match r with Ok _ => Ok (GV (VBool true)) | Err e => if exn_eqb e ETimeout then Ok (GV (VBool false)) else Err e end).

(** ** Address lookups *)
(** id of a node advertisement: class 88, command 1 *)
Definition advert : Z := 88 * 256 + 1.
(** nobody else waits for an advertisement while call [u] does: [a] was observed before it began, [b] until it ended *)
Definition only_lookup (a b : trace) : Prop :=
  (forall n u c, In (n, OCall u c) a -> wants c = Some advert -> exists n' r, In (n', ORet u r) a) /\
  (forall n u c, In (n, OCall u c) b -> wants c <> Some advert).
(** datagram [bs] advertises address [ip] for node [n] *)
Definition advertises (bs : list Z) (n : Z) (ip : val) : Prop :=
  exists d, decode bs = Ok (VObj (CMsg m_ZipND_ZipNodeAdvertisement) d) /\ aget "nodeId" d = Some (VI false 1 n) /\ aget "ipv6" d = Some ip.

(** ** Node connections *)
(** connection [l] was created for node [n] *)
Definition made (n : Z) (l : nat) (tr : gtrace) : Prop := exists k t ip, In (k, GNew t l n ip) tr.
(** a connection to node [n] was created and opened *)
Definition established (n : Z) (tr : gtrace) : Prop := exists k t l v, In (k, GBack t (AwOpen (Some l)) (Ok v)) tr /\ made n l tr.
(** the node whose connection a call needs *)
Definition aims (c : gcall) : option Z := match c with GSendTo n _ _ _ _ => Some n | GLinkTo n => Some n | _ => None end.

(** ** Node list reports *)
(** calls that change the table of nodes *)
Definition touches (c : gcall) : bool := match c with GReport _ | GList | GConnect => true | _ => false end.
(** during [b], no task but [t] that could change the table does anything; [tr] is everything so far *)
Definition undisturbed (t : nat) (tr b : gtrace) : Prop :=
  forall k o t' k' c, In (k, o) b -> task_of o = Some t' -> t' <> t -> In (k', GCalled t' c) tr -> touches c = false.
Definition is_updated (o : gobs) : bool := match o with GUpdated _ => true | _ => false end.
(** how often the listeners are told *)
Definition updates (tr : gtrace) : nat := length (filter is_updated (map snd tr)).
(** a python set iterates over its elements *)
Definition iterates (ord : list Z -> list Z) : Prop := forall l x, In x (ord l) <-> In x l.
Definition known (s : gw) (n : Z) : option val := dget Z.eqb n (d_nodes (g_d s)).

(** ** Unsolicited packets *)
(** node [n] is listed with address [a] *)
Definition listed (s : gw) (n a : Z) : Prop := In (n, VIPv6 a) (d_nodes (g_d s)).
