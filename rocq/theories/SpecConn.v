(** Vocabulary for connection properties: time stamped traces of observations and the wire format of acknowledgements.
    Uses the event and observation types of Conn.v but none of its functions. *)
From Coq Require Import String ZArith List Bool.
From Verif Require Import Py Schema Registry Codec Waiter Conn.
Import ListNotations.
Open Scope list_scope.
Open Scope string_scope.
Open Scope list_scope.
Open Scope Z_scope.

Definition trace := list (Z * obs).

(** ** Calls *)
Definition sending (c : call) : bool := match c with CWait _ _ => false | _ => true end.
(** how many sends were started *)
Definition sends (tr : trace) : Z :=
  zlen (filter (fun x => match snd x with OCall _ c => sending c | _ => false end) tr).
(** call [t] is [c], began at time [n] and [k] sends were started before it *)
Definition born (tr : trace) (t : nat) (c : call) (n k : Z) : Prop :=
  exists a b, tr = a ++ (n, OCall t c) :: b /\ sends a = k.
(** [x] was observed after call [t] began *)
Definition since (tr : trace) (t : nat) (x : Z * obs) : Prop :=
  exists a n c b, tr = a ++ (n, OCall t c) :: b /\ In x b.
(** the time out of the sending part of a call *)
Definition send_timeout (c : call) : Z := match c with CSend _ _ _ tmo => tmo | _ => 3000 end.

(** ** Datagrams *)
(** Z/IP packet: 23 02 flags0 flags1 seqno ...; flags0: 80 ack request, 40 ack, 20 nack, 10 waiting *)
Definition zip_seq (bs : list Z) (q : Z) : Prop := exists f0 f1 rest, bs = 35 :: 2 :: f0 :: f1 :: q :: rest.
Definition zip_bit (bs : list Z) (i : Z) : Prop := exists f0 rest, bs = 35 :: 2 :: f0 :: rest /\ Z.testbit f0 i = true.
(** acknowledges the packet with sequence number [q] *)
Definition acknowledges (bs : list Z) (q : Z) : Prop := zip_seq bs q /\ zip_bit bs 6 /\ ~ (zip_bit bs 5 /\ zip_bit bs 4).
(** announces that the packet with sequence number [q] is queued; expected delay [d] seconds *)
Definition announces (bs : list Z) (q d : Z) : Prop := zip_seq bs q /\ zip_bit bs 5 /\ zip_bit bs 4 /\
  exists attrs l, decode bs = Ok (VObj (CMsg m_Zip_ZipPacket) attrs) /\ aget "headerExtension" attrs = Some (VHdr l) /\
    match dget Z.eqb 1 l with Some x => to_int x = Ok d | None => d = 0 end.  (* option 1: expected delay *)
(** seconds a send waits after such an announcement *)
Definition patience (d : Z) : Z := (if d <? 0 then 120 else d) + 60.

(** the message a datagram brings: the command in a Z/IP packet without ack, nack and ack request flags, or a node advertisement *)
Definition flag (d : adict) (n : string) : bool := match aget n d with Some (VF z) => negb (z =? 0) | _ => false end.
Definition brings (bs : list Z) (m : val) : Prop :=
  (exists d c a, decode bs = Ok (VObj (CMsg m_Zip_ZipPacket) d) /\ m = VObj c a /\ flag d "ackResponse" = false /\ flag d "nackResponse" = false /\
     flag d "ackRequest" = false /\ flag d "zwCmdIncluded" = true /\ aget "command" d = Some m) \/
  (exists d, m = VObj (CMsg m_ZipND_ZipNodeAdvertisement) d /\ decode bs = Ok m).

(** ** Statements about every moment of a trace *)
Definition always (P : trace -> Z * obs -> Prop) (tr : trace) : Prop := forall a x b, tr = a ++ x :: b -> P a x.
(** when a send that is still waiting will be abandoned: its time out after its start or, once the peer has announced a
    delay, the granted time after the moment the last announcement took effect *)
Definition armed (tr : trace) (t : nat) (dl : Z) : Prop :=
  (exists n k c, born tr t c n k /\ dl = n + send_timeout c /\ forall m d, ~ In (m, ORearm t d) tr) \/
  (exists a m d b, tr = a ++ (m, ORearm t d) :: b /\ dl = m + 1000 * d /\ forall m' d', ~ In (m', ORearm t d') b).

(** ** What a call transmits *)
Definition payload (c : call) : option (val * Z * Z) :=
  match c with CSend cmd s d _ => Some (cmd, s, d) | CSendRecv cmd s d _ _ => Some (cmd, s, d) | CWait _ _ => None end.
(** Z/IP packet: ack requested (80), command included and secure origin (50), sequence number, endpoints, command *)
Definition packet (sq sep dep : Z) (cbs : list Z) : list Z := [35; 2; 128; 80; sq; sep; dep] ++ cbs.
Definition writes (o : obs) : bool := match o with OWire _ _ => true | _ => false end.
(** time of the last transmission in [tr], [n] if there is none *)
Definition last_tx (n : Z) (tr : trace) : Z := fold_left (fun m x => if writes (snd x) then fst x else m) tr n.
(** a send that has not been answered yet and will still report *)
Definition ended (tr : trace) (t : nat) (r : result) : Prop := exists n, In (n, ORet t r) tr.

(** ** Quiet runs: no datagram is handled while the expiry of a wait for an acknowledgement is being processed
    (a few iterations of the event loop) *)
Definition expiring (s : conn) : Prop :=
  exists t c aid sq dl ph ses, nth_error (c_tasks s) t = Some (mkT c (PAck aid sq dl ph ses)) /\ ph <> PhWaiting.
Inductive calm_exec (s0 : conn) : list event -> conn -> trace -> Prop :=
| Q_nil : calm_exec s0 [] s0 []
| Q_snoc es s tr e s' os : calm_exec s0 es s tr -> step s e = Some (s', os) -> ((exists bs, e = EvPacket bs) -> ~ expiring s) ->
    calm_exec s0 (es ++ [e]) s' (tr ++ stamp (c_now s) os).
(** Punctual runs: the clock does not pass the due time of the keep-alive timer *)
Inductive punctual_exec (s0 : conn) : list event -> conn -> trace -> Prop :=
| P_nil : punctual_exec s0 [] s0 []
| P_snoc es s tr e s' os : punctual_exec s0 es s tr -> step s e = Some (s', os) ->
    (forall dt d, e = EvAdvance dt -> c_ka s = Some d -> c_now s + dt <= d) ->
    punctual_exec s0 (es ++ [e]) s' (tr ++ stamp (c_now s) os).

(** ** Waiting for messages *)
(** the message id a call waits for *)
Definition wants (c : call) : option Z := match c with CSendRecv _ _ _ h _ => Some h | CWait h _ => Some h | CSend _ _ _ _ => None end.
(** a call that has not ended and waits for (or will wait for) message id [h] *)
Definition waits_on (s : conn) (t : nat) (h : Z) : Prop :=
  exists c p, nth_error (c_tasks s) t = Some (mkT c p) /\ wants c = Some h /\ forall r, p <> PDone r.
(** no message with id [h] was received *)
Definition none_of (h : Z) (tr : trace) : Prop := forall n bs m, In (n, ORecv bs) tr -> brings bs m -> hid m <> h.
(** [m] is the first message with id [h] that was received *)
Definition first_of (h : Z) (tr : trace) (m : val) : Prop :=
  exists a n bs b, tr = a ++ (n, ORecv bs) :: b /\ none_of h a /\ brings bs m /\ hid m = h.
(** every message with id [h] was received at time [n] or later *)
Definition none_before (h n : Z) (tr : trace) : Prop := forall n' bs m, In (n', ORecv bs) tr -> brings bs m -> hid m = h -> n <= n'.
(** how long a call waits for its reply *)
Definition reply_timeout (c : call) : Z := match c with CSendRecv _ _ _ _ tmo => tmo | CWait _ tmo => tmo | CSend _ _ _ _ => 0 end.
