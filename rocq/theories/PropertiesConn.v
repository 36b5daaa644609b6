(** C18 (connection part), C23-C37: the Z/IP connection.  Statements only; proofs are in the Conn*.v files.
    [exec conn0 es s tr]: the events [es], in any order the event loop may choose, lead to state [s] with observations [tr]. *)
From Coq Require Import String ZArith List Bool Lia.
From Verif Require Import Py BitStream Schema Registry Codec SpecBits SpecWire HeaderProofs Waiter Conn SpecConn ConnWitness ConnFirst ConnRest.
From Verif Require ConnProps ConnCalm.
From Verif Require Import SpecFields.
Import ListNotations.
Open Scope list_scope.
Open Scope string_scope.
Open Scope list_scope.
Open Scope Z_scope.

(** ** C18 *)
(** the seven bytes of an acknowledgement resolve the outstanding send with that number: it is marked as received, no
    longer outstanding, and nothing else changes *)
Theorem C18_resolves es s tr w q o (so : bool) sq a b i : exec conn0 es s tr -> In EvConnect es -> 0 <= sq < 256 -> 0 <= a < 128 -> 0 <= b < 128 ->
  dget Z.eqb sq (c_ackq s) = Some i ->
  exists x s', nth_error (c_acks s) i = Some x /\
    step s (EvPacket [35; 2; ack_flags true w q o; 16 * b2 so; sq; a; b]) = Some (s', [ORecv [35; 2; ack_flags true w q o; 16 * b2 so; sq; a; b]; OHandled true]) /\
    c_ackq s' = ddel Z.eqb sq (c_ackq s) /\ c_acks s' = upd i (mkAck SReceived (a_delay x) true) (c_acks s) /\ c_tasks s' = c_tasks s /\ c_w s' = c_w s /\ c_seq s' = c_seq s.
Proof. exact (ConnProps.ack_resolves es s tr w q o so sq a b i). Qed.
Print Assumptions C18_resolves.
Example C18_resolves_example : exec conn0 [EvConnect; x_send] (after [EvConnect; x_send]) (shown [EvConnect; x_send]) /\ dget Z.eqb 1 (c_ackq (after [EvConnect; x_send])) = Some 0%nat.
Proof. split; [apply runs_exec|]; vm_compute; reflexivity. Qed.

(** ** C23 *)
Theorem C23_framing es s tr c cmd sep dep b : exec conn0 es s tr -> In EvConnect es -> payload c = Some (cmd, sep, dep) -> 0 <= sep < 128 -> 0 <= dep < 128 -> encodes cmd b ->
  exists cbs s' os, compose cmd = Ok cbs /\ bits_of cbs = b /\
    step s (EvCall c) = Some (s', OCall (length (c_tasks s)) c :: OWire (Some (length (c_tasks s))) (packet ((sends tr + 1) mod 256) sep dep cbs) :: os) /\
    forall o, In o os -> writes o = false.
Proof. exact (ConnProps.framing es s tr c cmd sep dep b). Qed.
Print Assumptions C23_framing.
(** every datagram a call writes is written at its very beginning *)
Theorem C23_only_sends es s tr : exec conn0 es s tr ->
  always (fun a x => match x with (n, OWire (Some t) bs) => exists a' c, a = a' ++ [(n, OCall t c)] /\ sending c = true | _ => True end) tr.
Proof. exact (ConnProps.only_sends es s tr). Qed.
Print Assumptions C23_only_sends.
Example C23_example : runs ([EvConnect] ++ x_many 256 0 1 ++ [x_send]) = true /\ encodes x_get (nbits 8 32 ++ nbits 8 2 ++ []) /\
  last (shown ([EvConnect] ++ x_many 256 0 1 ++ [x_send])) (0, OHandled true) = (0, OWire (Some 256%nat) [35; 2; 128; 80; 1; 0; 0; 32; 2]).
Proof. split; [vm_compute; reflexivity|]. split; [exact x_get_encodes|vm_compute; reflexivity]. Qed.

(** ** C24, C25 *)
Theorem C24_acknowledged es s tr a n t b : exec conn0 es s tr -> tr = a ++ (n, ORet t (RBool true)) :: b ->
  exists a1 n0 c a2 m bs, a = a1 ++ (n0, OCall t c) :: a2 /\ sending c = true /\ In (m, ORecv bs) a2 /\ acknowledges bs ((sends a1 + 1) mod 256).
Proof. exact (ConnProps.sent_acked es s tr a n t b). Qed.
Print Assumptions C24_acknowledged.
Example C24_example : runs ([EvConnect] ++ x_done 0 1) = true /\ last (shown ([EvConnect] ++ x_done 0 1)) (0, OHandled true) = (0, ORet 0 (RBool true)).
Proof. vm_compute. auto. Qed.

Theorem C25_not_early es s tr a n t b : exec conn0 es s tr -> tr = a ++ (n, ORet t (RBool false)) :: b ->
  exists a1 n0 c a2, a = a1 ++ (n0, OCall t c) :: a2 /\ sending c = true /\
    (((forall m d, ~ In (m, ORearm t d) a2) /\ n0 + send_timeout c <= n) \/
     (exists m d x y, a2 = x ++ (m, ORearm t d) :: y /\ (forall m' d', ~ In (m', ORearm t d') y) /\ m + 1000 * d <= n)).
Proof. exact (ConnProps.failed_late es s tr a n t b). Qed.
Print Assumptions C25_not_early.
(** an extension of the waiting time was announced by the peer for that very send and is the announced delay
    (120 s if negative) plus 60 s *)
Theorem C25_announced es s tr a n t d b : exec conn0 es s tr -> tr = a ++ (n, ORearm t d) :: b ->
  exists a1 n0 c a2 m bs d', a = a1 ++ (n0, OCall t c) :: a2 /\ In (m, ORecv bs) a2 /\ announces bs ((sends a1 + 1) mod 256) d' /\ d = patience d'.
Proof. exact (ConnProps.rearm_announced es s tr a n t d b). Qed.
Print Assumptions C25_announced.
Example C25_example :
  let es := [EvConnect; x_send; x_queued 1; EvResume 0; EvAdvance 70000; EvTimer 0; EvResume 0; EvResume 0] in
  runs es = true /\ In (0, ORearm 0 70) (shown es) /\ last (shown es) (0, OHandled true) = (70000, ORet 0 (RBool false)).
Proof. vm_compute. split; [reflexivity|]. split; [tauto|reflexivity]. Qed.

(** ** C26 *)
Theorem C26_isolated es s tr bs s' os : exec conn0 es s tr -> zip_bit bs 6 \/ zip_bit bs 5 /\ zip_bit bs 4 -> step s (EvPacket bs) = Some (s', os) ->
  c_now s' = c_now s /\ c_up s' = c_up s /\ c_ka s' = c_ka s /\ c_seq s' = c_seq s /\ c_w s' = c_w s /\ c_tasks s' = c_tasks s /\
  (forall q i, dget Z.eqb q (c_ackq s) = Some i -> ~ zip_seq bs q -> dget Z.eqb q (c_ackq s') = Some i /\ nth_error (c_acks s') i = nth_error (c_acks s) i) /\
  (forall i, (forall q, In (q, i) (c_ackq s) -> ~ zip_seq bs q) -> nth_error (c_acks s') i = nth_error (c_acks s) i) /\
  ((forall q, zip_seq bs q -> dget Z.eqb q (c_ackq s) = None) -> s' = s) /\
  Forall (fun o => match o with ORecv _ | OHandled _ | OErr _ => True | _ => False end) os.
Proof. exact (ConnProps.ack_isolated es s tr bs s' os). Qed.
Print Assumptions C26_isolated.
Example C26_example : runs [EvConnect; x_send; x_send; x_ack 1] = true /\ zip_bit [35; 2; 64; 0; 1; 0; 0] 6 /\ c_ackq (after [EvConnect; x_send; x_send]) = [(1, 0%nat); (2, 1%nat)] /\ c_ackq (after [EvConnect; x_send; x_send; x_ack 1]) = [(2, 1%nat)].
Proof. split; [vm_compute; reflexivity|]. split; [exists 64, [0; 1; 0; 0]; split; reflexivity|]. vm_compute. auto. Qed.

(** ** C27 *)
(** False in general: an acknowledgement handled while the expiry of its send is being processed frees the number; the expiring
    send then removes the entry of whoever reused it. *)
Theorem C27_unique_refuted : ~ (forall es s tr t t' c c' aid aid' sq dl dl' ses ses', exec conn0 es s tr ->
  nth_error (c_tasks s) t = Some (mkT c (PAck aid sq dl PhWaiting ses)) -> nth_error (c_tasks s) t' = Some (mkT c' (PAck aid' sq dl' PhWaiting ses')) ->
  nth_error (c_acks s) aid = Some ack0 -> nth_error (c_acks s) aid' = Some ack0 -> t = t').
Proof.
  intros H. enough (256%nat = 512%nat) by discriminate.
  apply (H x_twice (after x_twice) (shown x_twice) _ _ (CSend x_get 0 0 3000) (CSend x_get 0 0 3000) 256%nat 512%nat 1 6000 6000 None None); [apply runs_exec|..]; vm_compute; reflexivity.
Qed.
Print Assumptions C27_unique_refuted.
(** Without that race (in calm runs) the numbers of sends still waiting are unique. *)
Theorem C27_unique_partial es s tr t t' c c' aid aid' sq dl dl' ph ph' ses ses' a a' : calm_exec conn0 es s tr ->
  nth_error (c_tasks s) t = Some (mkT c (PAck aid sq dl ph ses)) -> nth_error (c_tasks s) t' = Some (mkT c' (PAck aid' sq dl' ph' ses')) ->
  nth_error (c_acks s) aid = Some a -> nth_error (c_acks s) aid' = Some a' -> a_status a <> SReceived -> a_status a' <> SReceived -> t = t'.
Proof. exact (ConnCalm.unique_numbers es s tr t t' c c' aid aid' sq dl dl' ph ph' ses ses' a a'). Qed.
Print Assumptions C27_unique_partial.
(** A send whose number is outstanding is refused; every older operation is as before.  (All runs.) *)
Theorem C27_refused es s tr c cmd sep dep b i : exec conn0 es s tr -> payload c = Some (cmd, sep, dep) -> 0 <= sep < 128 -> 0 <= dep < 128 -> encodes cmd b ->
  dget Z.eqb ((sends tr + 1) mod 256) (c_ackq s) = Some i ->
  exists s' os, step s (EvCall c) = Some (s', os ++ [ORet (length (c_tasks s)) (RExc EDuplicateAck)]) /\ c_ackq s' = c_ackq s /\ c_acks s' = c_acks s /\
    (forall t, (t < length (c_tasks s))%nat -> nth_error (c_tasks s') t = nth_error (c_tasks s) t).
Proof. exact (ConnCalm.refused es s tr c cmd sep dep b i). Qed.
Print Assumptions C27_refused.
Example C27_example : exists s tr, calm_exec conn0 [EvConnect; x_send; x_send] s tr /\ c_ackq s = [(1, 0%nat); (2, 1%nat)].
Proof.
  exists (after [EvConnect; x_send; x_send]), (shown [EvConnect; x_send; x_send]). split; [|vm_compute; reflexivity].
  apply run_calm; [vm_compute; reflexivity|]. intros bs J. cbn in J. intuition discriminate.
Qed.
Example C27_refused_example : let es := [EvConnect] ++ repeat x_send 256 in runs es = true /\ dget Z.eqb ((sends (shown es) + 1) mod 256) (c_ackq (after es)) = Some 0%nat.
Proof. vm_compute. auto. Qed.

(** ** C28 *)
(** False: time out and acknowledgement cross *)
Theorem C28_never_raises_refuted : exec conn0 x_race (after x_race) (shown x_race) /\ born (shown x_race) 0 (CSend x_get 0 0 3000) 0 0 /\ sends (shown x_race) = 1 /\
  ended (shown x_race) 0 (RExc EKey).
Proof.
  split; [apply runs_exec; vm_compute; reflexivity|]. split; [exists [], (tl (shown x_race)); vm_compute; auto|]. split; [vm_compute; reflexivity|]. exists 3000. vm_compute. tauto.
Qed.
Print Assumptions C28_never_raises_refuted.
(** In calm runs a send whose number is free returns true or false, unless it is cancelled. *)
Theorem C28_never_raises_partial es1 s1 tr1 cmd sep dep tmo b s2 os es2 s3 tr3 n r : calm_exec conn0 es1 s1 tr1 -> 0 <= sep < 128 -> 0 <= dep < 128 -> encodes cmd b ->
  dget Z.eqb ((sends tr1 + 1) mod 256) (c_ackq s1) = None ->
  step s1 (EvCall (CSend cmd sep dep tmo)) = Some (s2, os) -> calm_exec s2 es2 s3 tr3 ->
  In (n, ORet (length (c_tasks s1)) r) (stamp (c_now s1) os ++ tr3) -> (exists v, r = RBool v) \/ (r = RExc ECancelled /\ In (EvCancel (length (c_tasks s1))) es2).
Proof. exact (ConnCalm.send_outcome es1 s1 tr1 cmd sep dep tmo b s2 os es2 s3 tr3 n r). Qed.
Print Assumptions C28_never_raises_partial.
Example C28_example : exists s2 s3 tr3, step (after [EvConnect]) x_send = Some (s2, [OCall 0 (CSend x_get 0 0 3000); OWire (Some 0%nat) [35; 2; 128; 80; 1; 0; 0; 32; 2]]) /\
  calm_exec s2 [EvAdvance 3000; EvTimer 0; EvResume 0; EvResume 0] s3 tr3 /\ In (3000, ORet 0 (RBool false)) tr3.
Proof.
  set (es := [EvAdvance 3000; EvTimer 0; EvResume 0; EvResume 0]). set (s2 := after [EvConnect; x_send]).
  exists s2, (after ([EvConnect; x_send] ++ es)), (skipn 2 (shown ([EvConnect; x_send] ++ es))). split; [vm_compute; reflexivity|]. split; [|vm_compute; tauto].
  apply run_calm; [vm_compute; reflexivity|]. intros bs J. cbn in J. intuition discriminate.
Qed.

(** ** C29 *)
(** False: a cancelled send keeps its number, and the send 256 later is refused although every other one has ended *)
Theorem C29_released_refuted : exec conn0 x_leak (after x_leak) (shown x_leak) /\ ended (shown x_leak) 0 (RExc ECancelled) /\ dget Z.eqb 1 (c_ackq (after x_leak)) = Some 0%nat /\
  ended (shown x_leak) 256 (RExc EDuplicateAck) /\ forallb (fun x => match t_pc x with PDone _ => true | _ => false end) (c_tasks (after x_leak)) = true.
Proof.
  split; [apply runs_exec; vm_compute; reflexivity|]. split; [exists 0; apply nth_error_In with (n := 2%nat); vm_compute; reflexivity|]. split; [vm_compute; reflexivity|].
  split; [exists 0; apply nth_error_In with (n := 1280%nat)|]; vm_compute; reflexivity.
Qed.
Print Assumptions C29_released_refuted.
(** Every outstanding number belongs to a send that has not ended or that was cancelled.  (All runs.) *)
Theorem C29_released_partial es s tr q i : exec conn0 es s tr -> dget Z.eqb q (c_ackq s) = Some i ->
  exists t c n k, born tr t c n k /\ sending c = true /\ q = (k + 1) mod 256 /\ forall r, ended tr t r -> r = RExc ECancelled.
Proof. exact (ConnCalm.outstanding_owner es s tr q i). Qed.
Print Assumptions C29_released_partial.

(** ** C30 *)
Theorem C30_malformed s bs : c_up s = true -> bytes_ok bs -> (forall m, decode bs <> Ok m) -> step s (EvPacket bs) = Some (s, [ORecv bs; OHandled false]).
Proof. exact (ConnRest.undecodable s bs). Qed.
Print Assumptions C30_malformed.
Example C30_example : bytes_ok [35; 2; 0; 128; 1; 0; 0; 9; 1] /\ decode [35; 2; 0; 128; 1; 0; 0; 9; 1] = Err EEOF.
Proof. split; [repeat (constructor; [lia|]); constructor|]. vm_compute. reflexivity. Qed.

(** ** C31 *)
(** False in three ways: a queued announcement without header extension, the command-included flag without a command, and a
    reply that arrives while the time out of its waiter is being processed *)
Theorem C31_no_delay_refuted : exists es s tr s' bs, exec conn0 es s tr /\ step s (EvPacket bs) = Some (s', [ORecv bs; OErr EAttribute]) /\ zip_bit bs 5.
Proof.
  exists [EvConnect; x_send], (after [EvConnect; x_send]), (shown [EvConnect; x_send]). eexists. exists [35; 2; 48; 0; 1; 0; 0].
  split; [apply runs_exec; vm_compute; reflexivity|]. split; [vm_compute; reflexivity|]. exists 48, [0; 1; 0; 0]. split; reflexivity.
Qed.
Print Assumptions C31_no_delay_refuted.
Theorem C31_no_command_refuted : exists es s tr s' bs, exec conn0 es s tr /\ step s (EvPacket bs) = Some (s', [ORecv bs; OErr EAttribute]) /\ es = [EvConnect].
Proof.
  exists [EvConnect], (after [EvConnect]), (shown [EvConnect]). eexists. exists [35; 2; 0; 64; 1; 0; 0].
  split; [apply runs_exec; vm_compute; reflexivity|]. split; vm_compute; reflexivity.
Qed.
Print Assumptions C31_no_command_refuted.
Theorem C31_expired_refuted : exists es s tr s' bs, exec conn0 es s tr /\ step s (EvPacket bs) = Some (s', [ORecv bs; OErr EInvalidState]) /\ (exists m, brings bs m).
Proof.
  set (es := [EvConnect; x_wait 100; EvAdvance 100; EvTimer 0; EvResume 0]). exists es, (after es), (shown es). eexists. exists [35; 2; 0; 64; 9; 0; 0; 32; 3; 5].
  split; [apply runs_exec; vm_compute; reflexivity|]. split; [vm_compute; reflexivity|]. eexists. exact x_brings.
Qed.
Print Assumptions C31_expired_refuted.
(** These are the only ways. *)
Theorem C31_never_raises_partial es s tr bs s' os e : exec conn0 es s tr -> step s (EvPacket bs) = Some (s', os) -> In (OErr e) os ->
  (zip_bit bs 5 /\ zip_bit bs 4 /\ forall q x, ~ announces bs q x) \/
  (exists d, decode bs = Ok (VObj (CMsg m_Zip_ZipPacket) d) /\ flag d "zwCmdIncluded" = true /\ forall c a, aget "command" d <> Some (VObj c a)) \/
  (exists m, brings bs m /\ gives_up s (hid m)).
Proof. exact (ConnRest.packet_error es s tr bs s' os e). Qed.
Print Assumptions C31_never_raises_partial.

(** ** C32 *)
(** False: the third caller waits for a report, yet the report is announced instead of being handed over *)
Theorem C32_destination_refuted : exec conn0 x_cross (after x_cross) (shown x_cross) /\ waits_on (after x_cross) 2 x_hid /\
  (forall t, ~ gives_up (after x_cross) t) /\
  exists s' v bs m, x_reply = EvPacket bs /\ brings bs m /\ hid m = x_hid /\ step (after x_cross) x_reply = Some (s', [ORecv bs; OHeard v; OHandled true]).
Proof.
  split; [apply runs_exec; vm_compute; reflexivity|]. split; [do 2 eexists; split; [vm_compute; reflexivity|]; split; [reflexivity|discriminate]|]. split.
  - intros h (t & c & f & H). destruct t as [|[|[|t]]]; vm_compute in H; [..|destruct t]; destruct H as [(dl & H)|H]; discriminate.
  - do 3 eexists. exists (VObj (CMsg m_Basic_Report) [("value", VI false 1 5)]). split; [reflexivity|]. split; [exact x_brings|]. split; [reflexivity|]. vm_compute. reflexivity.
Qed.
Print Assumptions C32_destination_refuted.
(** What holds always: a datagram that brings no message is never announced and does not touch waiting callers; one that does is
    announced exactly once if no session exists for its id, and otherwise becomes the result of that session, which some call opened,
    and is not announced. *)
Theorem C32_destination_partial es s tr bs s' os : exec conn0 es s tr -> step s (EvPacket bs) = Some (s', os) ->
  ((forall m, ~ brings bs m) /\ (forall v, ~ In (OHeard v) os) /\ c_w s' = c_w s) \/
  (exists m, brings bs m /\
    ((dget Z.eqb (hid m) (w_sess (c_w s)) = None /\ s' = s /\ exists v, decode bs = Ok v /\ os = [ORecv bs; OHeard v; OHandled true]) \/
     (exists f, dget Z.eqb (hid m) (w_sess (c_w s)) = Some f /\ os = [ORecv bs; OHandled true] /\ dget Z.eqb (hid m) (w_sess (c_w s')) = None /\ c_tasks s' = c_tasks s /\
        (forall g, nth_error (w_futs (c_w s')) g = if Nat.eqb g f then Some (FDone m) else nth_error (w_futs (c_w s)) g) /\
        exists t c p, nth_error (c_tasks s) t = Some (mkT c p) /\ wants c = Some (hid m)) \/
     (gives_up s (hid m) /\ os = [ORecv bs; OErr EInvalidState]))).
Proof. exact (ConnRest.destination es s tr bs s' os). Qed.
Print Assumptions C32_destination_partial.

(** ** C33 *)
Theorem C33_timer es1 s1 tr1 s2 os es2 s3 tr3 : exec conn0 es1 s1 tr1 -> step s1 EvConnect = Some (s2, os) -> exec s2 es2 s3 tr3 -> ~ In EvConnect es2 ->
  c_ka s3 = Some (last_tx (c_now s1) tr3 + 25000).
Proof. intros A B C D. exact (proj1 (proj2 (ConnRest.ka_exec es1 s1 tr1 s2 os es2 s3 tr3 A B C D))). Qed.
Print Assumptions C33_timer.
Theorem C33_frame es s tr d : exec conn0 es s tr -> In EvConnect es -> c_ka s = Some d -> d <= c_now s ->
  exists s', step s EvKeepAlive = Some (s', [OWire None [35; 3; 128]]) /\ c_ka s' = Some (c_now s + 25000).
Proof. exact (ConnRest.ka_fires es s tr d). Qed.
Print Assumptions C33_frame.
(** if timers fire when they are due the link is never idle longer than 25 s *)
Theorem C33_never_idle es1 s1 tr1 s2 os es2 s3 tr3 : exec conn0 es1 s1 tr1 -> step s1 EvConnect = Some (s2, os) -> punctual_exec s2 es2 s3 tr3 -> ~ In EvConnect es2 ->
  c_now s3 <= last_tx (c_now s1) tr3 + 25000.
Proof. exact (ConnRest.ka_punctual es1 s1 tr1 s2 os es2 s3 tr3). Qed.
Print Assumptions C33_never_idle.
Example C33_example : let es := [EvConnect; EvAdvance 10000; x_send; EvAdvance 25000; EvKeepAlive; EvAdvance 7] in
  runs es = true /\ c_ka (after es) = Some 60000 /\ last_tx 0 (shown es) = 35000 /\ last (shown es) (0, OHandled true) = (35000, OWire None [35; 3; 128]).
Proof. vm_compute. auto. Qed.

(** ** C34 *)
(** False when the time out of the request's acknowledgement and the acknowledgement cross: the reply was received, the call raises *)
Theorem C34_first_reply_refuted : exec conn0 x_lost (after x_lost) (shown x_lost) /\ first_of x_hid (shown x_lost) (VObj (CMsg m_Basic_Report) [("value", VI false 1 5)]) /\
  ended (shown x_lost) 0 (RExc EKey).
Proof.
  split; [apply runs_exec; vm_compute; reflexivity|]. split; [|exists 3000; vm_compute; tauto].
  exists [(0, OCall 0 (CSendRecv x_get 0 0 x_hid 5000)); (0, OWire (Some 0%nat) [35; 2; 128; 80; 1; 0; 0; 32; 2])], 0, [35; 2; 0; 64; 9; 0; 0; 32; 3; 5]. eexists.
  split; [vm_compute; reflexivity|]. split; [|split; [exact x_brings|reflexivity]]. intros n bs m [E|[E|[]]]; discriminate.
Qed.
Print Assumptions C34_first_reply_refuted.
(** In calm runs, with a free sequence number: the call returns the first reply since it began, whenever the acknowledgement
    comes; it times out only if no reply was received within the time out, and otherwise it was cancelled. *)
Theorem C34_first_reply_partial es1 s1 tr1 c h s2 os es2 s3 tr3 n r : calm_exec conn0 es1 s1 tr1 -> wants c = Some h -> (forall t, ~ waits_on s1 t h) -> sane c ->
  dget Z.eqb ((sends tr1 + 1) mod 256) (c_ackq s1) = None ->
  step s1 (EvCall c) = Some (s2, os) -> calm_exec s2 es2 s3 tr3 -> (forall c', In (EvCall c') es2 -> wants c' <> Some h) ->
  In (n, ORet (length (c_tasks s1)) r) (stamp (c_now s1) os ++ tr3) ->
  (exists m, r = RMsg m /\ first_of h (stamp (c_now s1) os ++ tr3) m) \/ (r = RExc ETimeout /\ none_before h (c_now s1 + reply_timeout c) (stamp (c_now s1) os ++ tr3)) \/
  (r = RExc ECancelled /\ In (EvCancel (length (c_tasks s1))) es2).
Proof. exact (ConnFirst.calm_alone_reply es1 s1 tr1 c h s2 os es2 s3 tr3 n r). Qed.
Print Assumptions C34_first_reply_partial.
(** In all runs: besides that, the call can only raise the KeyError of the race or be refused its number. *)
Theorem C34_all_runs_partial es1 s1 tr1 c h s2 os es2 s3 tr3 n r : exec conn0 es1 s1 tr1 -> wants c = Some h -> (forall t, ~ waits_on s1 t h) -> sane c -> step s1 (EvCall c) = Some (s2, os) ->
  exec s2 es2 s3 tr3 -> (forall c', In (EvCall c') es2 -> wants c' <> Some h) -> In (n, ORet (length (c_tasks s1)) r) (stamp (c_now s1) os ++ tr3) ->
  alone_outcome c h (length (c_tasks s1)) (c_now s1) (dget Z.eqb ((sends tr1 + 1) mod 256) (c_ackq s1) <> None) es2 (stamp (c_now s1) os ++ tr3) r.
Proof. exact (ConnFirst.alone_reply es1 s1 tr1 c h s2 os es2 s3 tr3 n r). Qed.
Print Assumptions C34_all_runs_partial.
(** and once the call waits for its reply, a received reply is returned when the task runs *)
Theorem C34_ready es1 s1 tr1 c h s2 os es2 s3 tr3 m f dl ph : exec conn0 es1 s1 tr1 -> wants c = Some h -> (forall t, ~ waits_on s1 t h) -> sane c -> step s1 (EvCall c) = Some (s2, os) ->
  exec s2 es2 s3 tr3 -> (forall c', In (EvCall c') es2 -> wants c' <> Some h) -> nth_error (c_tasks s3) (length (c_tasks s1)) = Some (mkT c (PWait h f dl ph)) -> ph <> PhExpiring ->
  first_of h (stamp (c_now s1) os ++ tr3) m -> exists s4, step s3 (EvResume (length (c_tasks s1))) = Some (s4, [ORet (length (c_tasks s1)) (RMsg m)]).
Proof. exact (ConnFirst.alone_ready es1 s1 tr1 c h s2 os es2 s3 tr3 m f dl ph). Qed.
Print Assumptions C34_ready.
Example C34_example : runs x_early = true /\ last (shown x_early) (0, OHandled true) = (0, ORet 0 (RMsg (VObj (CMsg m_Basic_Report) [("value", VI false 1 5)]))) /\
  sane (CSendRecv x_get 0 0 x_hid 5000) /\ (forall t, ~ waits_on (after [EvConnect]) t x_hid).
Proof.
  split; [vm_compute; reflexivity|]. split; [vm_compute; reflexivity|]. split.
  - intros cmd sep dep [= <- <- <-]. split; [lia|]. split; [lia|]. eexists. exact x_get_encodes.
  - intros t (c & p & E & _). destruct t; discriminate.
Qed.

(** ** C35 *)
Theorem C35_fresh es s tr a n t m b : exec conn0 es s tr -> tr = a ++ (n, ORet t (RMsg m)) :: b ->
  exists a1 n0 c a2 n1 bs, a = a1 ++ (n0, OCall t c) :: a2 /\ wants c = Some (hid m) /\ In (n1, ORecv bs) a2 /\ brings bs m.
Proof. intros X E. exact (ConnRest.reply_fresh es s tr X a (n, ORet t (RMsg m)) b E). Qed.
Print Assumptions C35_fresh.
Example C35_example : exec conn0 x_early (after x_early) (shown x_early) /\ exists a n t m b, shown x_early = a ++ (n, ORet t (RMsg m)) :: b.
Proof.
  split; [apply runs_exec; vm_compute; reflexivity|]. exists (removelast (shown x_early)), 0, 0%nat, (VObj (CMsg m_Basic_Report) [("value", VI false 1 5)]), []. vm_compute. reflexivity.
Qed.

(** ** C36 *)
(** False: another caller's time out ends the wait *)
Theorem C36_time_out_refuted : exec conn0 x_foreign (after x_foreign) (shown x_foreign) /\ born (shown x_foreign) 1 (CWait x_hid 1000) 0 0 /\
  In (100, ORet 1 (RExc ECancelled)) (shown x_foreign) /\ forall t, ~ In (EvCancel t) x_foreign.
Proof.
  split; [apply runs_exec; vm_compute; reflexivity|]. split; [exists [(0, OCall 0 (CWait x_hid 100))]; eexists; vm_compute; split; reflexivity|]. split; [vm_compute; tauto|].
  intros t J. cbn in J. repeat (destruct J as [J|J]; [discriminate|]). exact J.
Qed.
Print Assumptions C36_time_out_refuted.
(** False: another caller's end removes the session, so a message that arrives in time is missed *)
Theorem C36_missed_refuted : exec conn0 x_missed (after x_missed) (shown x_missed) /\ born (shown x_missed) 2 (CWait x_hid 1000) 0 0 /\
  In (10, ORecv [35; 2; 0; 64; 9; 0; 0; 32; 3; 5]) (shown x_missed) /\ In (1000, ORet 2 (RExc ETimeout)) (shown x_missed).
Proof.
  split; [apply runs_exec; vm_compute; reflexivity|]. split; [exists (firstn 5 (shown x_missed)), (skipn 6 (shown x_missed)); vm_compute; split; reflexivity|]. split; vm_compute; tauto.
Qed.
Print Assumptions C36_missed_refuted.
(** Callers waiting for other message ids have no influence: a wait that is alone with its id returns the first message since
    it began, times out only if none came in time, or was cancelled.  (All runs.) *)
Theorem C36_undisturbed_partial es1 s1 tr1 h tmo s2 os es2 s3 tr3 n r : exec conn0 es1 s1 tr1 -> (forall t, ~ waits_on s1 t h) -> step s1 (EvCall (CWait h tmo)) = Some (s2, os) ->
  exec s2 es2 s3 tr3 -> (forall c', In (EvCall c') es2 -> wants c' <> Some h) -> In (n, ORet (length (c_tasks s1)) r) (stamp (c_now s1) os ++ tr3) ->
  match r with
  | RMsg m => first_of h (stamp (c_now s1) os ++ tr3) m
  | RExc ETimeout => none_before h (c_now s1 + tmo) (stamp (c_now s1) os ++ tr3)
  | RExc ECancelled => In (EvCancel (length (c_tasks s1))) es2
  | _ => False
  end.
Proof. exact (ConnFirst.alone_wait es1 s1 tr1 h tmo s2 os es2 s3 tr3 n r). Qed.
Print Assumptions C36_undisturbed_partial.
(** When a message arrives, every caller waiting on the session of its id gets it: C32_destination_partial. *)
Example C36_example : let es := [EvConnect; x_wait 1000; EvCall (CWait 5 100); EvAdvance 100; EvTimer 1; EvResume 1; EvResume 1; x_reply; EvResume 0] in
  runs es = true /\ last (shown es) (0, OHandled true) = (100, ORet 0 (RMsg (VObj (CMsg m_Basic_Report) [("value", VI false 1 5)]))).
Proof. vm_compute. auto. Qed.

(** ** C37 *)
(** False: a request cancelled while its acknowledgement is outstanding leaves its session behind; the next report is swallowed *)
Theorem C37_cleaned_refuted : exec conn0 x_orphan (after x_orphan) (shown x_orphan) /\ (forall t h, ~ waits_on (after x_orphan) t h) /\
  exists s' bs m, x_reply = EvPacket bs /\ brings bs m /\ step (after x_orphan) x_reply = Some (s', [ORecv bs; OHandled true]).
Proof.
  split; [apply runs_exec; vm_compute; reflexivity|]. split.
  - intros [|t] h (c & p & E & _ & N); vm_compute in E; [injection E as <- <-; elim (N _ eq_refl)|destruct t; discriminate].
  - do 2 eexists. exists (VObj (CMsg m_Basic_Report) [("value", VI false 1 5)]). split; [reflexivity|]. split; [exact x_brings|]. vm_compute. reflexivity.
Qed.
Print Assumptions C37_cleaned_refuted.
(** If every call that waited for the id has ended, and the requests among them with a reply or a time out, the next message
    with that id is announced. *)
Theorem C37_cleaned_partial es s tr h bs m : exec conn0 es s tr -> In EvConnect es -> clean_end tr h -> bytes_ok bs -> brings bs m -> hid m = h ->
  exists v, decode bs = Ok v /\ step s (EvPacket bs) = Some (s, [ORecv bs; OHeard v; OHandled true]).
Proof. exact (ConnRest.heard es s tr h bs m). Qed.
Print Assumptions C37_cleaned_partial.
Example C37_example : exec conn0 x_early (after x_early) (shown x_early) /\ clean_end (shown x_early) x_hid.
Proof.
  split; [apply runs_exec; vm_compute; reflexivity|]. intros t c n k (a & b & E & _) W.
  assert (J : In (n, OCall t c) (shown x_early)) by (rewrite E; apply in_or_app; right; left; reflexivity). vm_compute in J.
  clear E. destruct J as [J|J]; [|exfalso; repeat (destruct J as [J|J]; [discriminate J|]); exact J]. injection J as <- <- <-. split.
  - intros cmd sep dep [= <- <- <-]. split; [lia|]. split; [lia|]. eexists. exact x_get_encodes.
  - exists (RMsg (VObj (CMsg m_Basic_Report) [("value", VI false 1 5)])). split; [exists 0; apply nth_error_In with (n := 6%nat); vm_compute; reflexivity|]. eauto.
Qed.
