(** Vocabulary for connecting to the gateway. *)
From Coq Require Import String ZArith List Bool.
From Verif Require Import Py Schema Codec Conn SpecConn Gateway SpecGateway.
Import ListNotations.
Open Scope list_scope.
Open Scope string_scope.
Open Scope list_scope.
Open Scope Z_scope.

(** A piece of what a task does, and how it ends: with a value or an exception *)
Definition piece := list gobs -> res gval -> Prop.
(** one piece and then another; an exception ends it *)
Definition andthen (A : piece) (B : gval -> piece) : piece := fun h r =>
  (exists e, A h (Err e) /\ r = Err e) \/ exists h1 h2 v, h = h1 ++ h2 /\ A h1 (Ok v) /\ B v h2 r.
(** something is waited for *)
Definition awaits (t : nat) (w : await) : piece := fun h r => h = [GBack t w r].
(** a call on the gateway's own connection; it may raise at once *)
Definition calling (t : nat) (c : call) : piece := fun h r =>
  exists u, (h = [GSub t None u c] /\ exists e, r = Err e) \/ h = [GSub t None u c; GBack t (AwCall None u) r].
(** the gateway is told to send unsolicited messages to ::ffff:192.168.0.49, port 4123: class 95, command 8 *)
Definition destination (c : call) : Prop := exists v, compose v = Ok [95; 8; 0; 0; 0; 0; 0; 0; 0; 0; 0; 0; 255; 255; 192; 168; 0; 49; 16; 27] /\ c = CSend v 0 0 3000.
(** the node list is asked for: class 82, command 1; the report is command 2 *)
Definition list_get (c : call) : Prop := exists v k, (byte k -> compose v = Ok [82; 1; k]) /\ c = CSendRecv v 0 0 (82 * 256 + 2) 3000.
Definition list_result (r : res gval) : res gval :=
  match r with
  | Ok (GV rep) => match getattr rep "nodes" with VNodeList l => Ok (GV (VNodeList l)) | _ => Err EType end
  | Ok _ => Err EUnmodelled
  | Err e => if exn_eqb e ETimeout then Ok (GV (VNodeList [])) else Err e
  end.
(** the list of nodes: what is known, or what the gateway answers, or nothing if it does not answer *)
Definition listing (t : nat) : piece := fun h r => (h = [] /\ exists l, r = Ok (GV (VNodeList l))) \/
  exists c u, list_get c /\ ((h = [GSub t None u c] /\ exists e, r = Err e) \/ exists r0, h = [GSub t None u c; GBack t (AwCall None u) r0] /\ r = list_result r0).
(** the address of node [n] is asked for *)
Definition lookup (t : nat) (n : Z) : piece := fun h r => exists bs sent u, (byte n -> bs = [88; 4; 0; n]) /\
  ((exists e, r = Err e /\ h = [GAsk t n bs sent; GSub t None u (CWait advert 3000); GBack t (AwCall None u) (Err e)]) \/
   (exists m, r = Ok (GV (getattr m "ipv6")) /\ h = [GAsk t n bs sent; GSub t None u (CWait advert 3000); GBack t (AwCall None u) (Ok (GV m)); GFound t n (getattr m "ipv6")])).
(** all of [ns] were looked at: skipped or asked for *)
Inductive looked (t : nat) : list Z -> list gobs -> Prop :=
| LO_nil : looked t [] []
| LO_skip ns h n : looked t ns h -> looked t (ns ++ [n]) h
| LO_ask ns h n h' v : looked t ns h -> lookup t n h' (Ok v) -> looked t (ns ++ [n]) (h ++ h').
(** the same until an exception: by the look up, for a number that no node has, or, if others change the table ([others]), for a node that is gone *)
Definition looking (others : Prop) (t : nat) (ns : list Z) : piece := fun h r =>
  (r = Ok (GV VNone) /\ looked t ns h) \/
  exists done n rest h1 h2 e, ns = done ++ n :: rest /\ h = h1 ++ h2 /\ looked t done h1 /\ r = Err e /\
    (lookup t n h2 r \/ (h2 = [] /\ ~ byte n) \/ (h2 = [] /\ e = EKey /\ others)).
(** what connect() does before it returns [r]: the socket, the mode, the unsolicited port, the destination, the node list, and the addresses of the nodes *)
Definition connecting (others : Prop) (ord : list Z -> list Z) (t : nat) : piece :=
  andthen (awaits t (AwOpen None)) (fun _ =>
  andthen (mode_run t 1 3000) (fun _ =>
  andthen (awaits t AwListen) (fun _ =>
  andthen (fun h r => exists c, destination c /\ calling t c h r) (fun _ =>
  andthen (listing t) (fun v =>
  match v with GV (VNodeList l) => looking others t (ord l) | _ => fun _ _ => False end))))).
