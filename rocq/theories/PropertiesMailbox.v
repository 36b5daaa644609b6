(** C58-C64, C75: mailbox.  Statements only; proofs are in MailboxProofs.v, MailboxMore.v and MailboxCrc.v. *)
From Coq Require Import String ZArith List Bool Lia.
From Verif Require Import Py Schema Registry Codec SpecBits MailboxM SpecMailbox.
From Verif Require MailboxProofs MailboxMore MailboxCrc.
Import ListNotations.
Open Scope list_scope.
Open Scope string_scope.
Open Scope list_scope.
Open Scope Z_scope.

(** evaluate a run *)
Local Ltac ran := eexists _, _; split; [vm_compute; reflexivity|].

(** ** C58 *)
Theorem C58_once es s tr h : serial es s tr -> NoDup (map it_data (queue h s)).
Proof. exact (MailboxProofs.serial_once es s tr h). Qed.
Print Assumptions C58_once.
(** a handler that stores a message sent exactly one message: the waiting notice for it *)
Theorem C58_notice es s tr n t b : mexec mbox0 es s tr -> In (n, MStored t b) tr ->
  exists x m, nth_error (m_beats s) b = Some x /\ sent_by t tr = [(bt_node x, m)] /\ parts m = Some (WAITING, bt_handle x, Some (bt_data x)).
Proof. exact (MailboxProofs.stored_announced es s tr n t b). Qed.
Print Assumptions C58_notice.
(** and what is queued was stored by such a handler *)
Theorem C58_queued es s tr : mexec mbox0 es s tr -> forall h it, In it (queue h s) ->
  exists n t x, In (n, MStored t (it_beat it)) tr /\ nth_error (m_beats s) (it_beat it) = Some x /\ bt_node x = it_node it /\ bt_handle x = h /\ bt_data x = it_data it.
Proof. exact (MailboxProofs.queued_stored es s tr). Qed.
Print Assumptions C58_queued.
(** pushed twice, then something else *)
Example C58_example : exists s tr, mrun mbox0 [EvMessage 5 (push_msg 1 [32; 1; 255]); EvSent 0 (Ok true); EvMessage 5 (push_msg 1 [32; 1; 255]); EvMessage 5 (push_msg 1 [32; 1; 0]); EvSent 2 (Ok true)] = Some (s, tr) /\
  map it_data (queue 1 s) = [[32; 1; 255]; [32; 1; 0]] /\ In (0, MStored 0 0) tr /\ In (0, MRet 1 (Ok false)) tr.
Proof. ran. vm_compute. tauto. Qed.
Example C58_example_serial : exists es s tr, serial es s tr /\ length (queue 1 s) = 1%nat.
Proof.
  exists [EvMessage 5 (push_msg 1 [32; 1; 255]); EvSent 0 (Ok true); EvMessage 5 (push_msg 1 [32; 1; 255])]. eexists _, _. split.
  - eapply (SE_snoc [_; _]). eapply (SE_snoc [_]). eapply (SE_snoc []). apply SE_nil.
    + intros node m h d _ _ ([|t] & ? & ? & H); discriminate H.
    + vm_compute. reflexivity.
    + discriminate.
    + vm_compute. reflexivity.
    + intros node m h d _ _ ([|[|t]] & ? & ? & H); discriminate H.
    + vm_compute. reflexivity.
  - reflexivity.
Qed.

(** ** C59 *)
Theorem C59_race_refuted : exists es s tr, mexec mbox0 es s tr /\ map it_data (queue 1 s) = [[32; 1; 255]; [32; 1; 255]].
Proof.
  exists [EvMessage 5 (push_msg 1 [32; 1; 255]); EvMessage 5 (push_msg 1 [32; 1; 255]); EvSent 0 (Ok true); EvSent 1 (Ok true)].
  eexists _, _. split; [apply MailboxMore.mrun_exec; vm_compute; reflexivity|reflexivity].
Qed.
Print Assumptions C59_race_refuted.
(** in any state and with any other handlers running, a message that is queued is not stored again *)
Theorem C59_partial s node m h d it : pushes m h d -> In it (queue h s) -> it_data it = d ->
  exists s' t, mstep s (EvMessage node m) = Some (s', [MIn node m; MRet t (Ok false)]) /\ (forall h', queue h' s' = queue h' s) /\ m_beats s' = m_beats s /\ m_tasks s' = m_tasks s ++ [MDone (Ok false)].
Proof. exact (MailboxProofs.push_queued s node m h d it). Qed.
Print Assumptions C59_partial.
Example C59_example : exists s tr it, mrun mbox0 [EvMessage 5 (push_msg 1 [32; 1; 255]); EvSent 0 (Ok true); EvMessage 5 (push_msg 1 [32; 1; 0])] = Some (s, tr) /\ In it (queue 1 s) /\ it_data it = [32; 1; 255] /\
  pushes (push_msg 1 [32; 1; 255]) 1 [32; 1; 255] /\ pushing 1 s.
Proof.
  eexists _, _, _. split; [vm_compute; reflexivity|]. split; [left; reflexivity|]. split; [reflexivity|]. split; [exists (Some [32; 1; 255]); split; reflexivity|].
  exists 1%nat, 5, [32; 1; 0]. reflexivity.
Qed.

(** ** C60 *)
Theorem C60_order_refuted : exists s tr, mrun mbox0 (push_all 5 1 0 [[32; 1; 255]; [32; 1; 0]] ++ wake_all 5 1 2 2) = Some (s, tr) /\ delivered 1 tr = [[32; 1; 0]; [32; 1; 255]].
Proof. ran. reflexivity. Qed.
Print Assumptions C60_order_refuted.
(** messages are delivered completely, newest first *)
Theorem C60_reverse_partial node h ds s : queue h s = [] -> NoDup (map checksum ds) ->
  exists s' tr, mrun s (push_all node h (length (m_tasks s)) ds ++ wake_all node h (length (m_tasks s) + length ds) (length ds)) = Some (s', tr) /\ delivered h tr = rev ds /\ queue h s' = [].
Proof. exact (MailboxProofs.reverse_order node h ds s). Qed.
Print Assumptions C60_reverse_partial.
(** whatever is in the queue *)
Theorem C60_wakeups_partial node h q s : queue h s = rev q -> exists s' tr, mrun s (wake_all node h (length (m_tasks s)) (length q)) = Some (s', tr) /\ delivered h tr = map it_data q /\ queue h s' = [].
Proof. exact (MailboxProofs.wakes_deliver node h q s). Qed.
Print Assumptions C60_wakeups_partial.
Example C60_example : NoDup (map checksum [[32; 1; 255]; [32; 1; 0]; [37; 1; 255]]) /\ queue 3 mbox0 = [].
Proof. split; [vm_compute; repeat (constructor; [cbn; lia|]); constructor|reflexivity]. Qed.

(** ** C61 *)
(** every prefix of an execution is an execution: each delivery comes after a push of its own *)
Theorem C61_pushed_before h d es s tr : mexec mbox0 es s tr -> (count (is_delivery h d) tr + count (holds d) (queue h s) <= count (is_push h d) tr)%nat.
Proof. exact (MailboxProofs.delivered_once h d es s tr). Qed.
Print Assumptions C61_pushed_before.
(** a stored message is in the queue or was delivered, once *)
Theorem C61_at_most_once h d es s tr : mexec mbox0 es s tr -> (count (is_delivery h d) tr + count (holds d) (queue h s) = count (is_for h d) (m_beats s))%nat.
Proof. exact (MailboxProofs.counted_stored h d es s tr). Qed.
Print Assumptions C61_at_most_once.
(** what a push looks like on the wire *)
Theorem C61_wire b h tl : bytes_ok (b :: h :: tl) -> exists m, decode (105 :: 4 :: b :: h :: tl) = Ok m /\ parts m = Some (b mod 8, h, match tl with [] => None | _ => Some tl end).
Proof. intros B. destruct (MailboxMore.queue_reads b h tl B) as (m & E & P & _). eauto. Qed.
Print Assumptions C61_wire.
Example C61_example : exists s tr, mrun mbox0 (push_all 5 1 0 [[32; 1; 255]; [32; 1; 0]] ++ [EvMessage 5 (wake_msg 1)]) = Some (s, tr) /\
  count (is_delivery 1 [32; 1; 0]) tr = 1%nat /\ count (is_push 1 [32; 1; 0]) tr = 1%nat /\ count (holds [32; 1; 255]) (queue 1 s) = 1%nat /\ count (is_delivery 1 [32; 1; 255]) tr = 0%nat.
Proof. ran. vm_compute. auto. Qed.

(** ** C62 *)
(** the answer to a wake-up; 9 is "last" and "pop", 1 is "pop" *)
Theorem C62_wake s node h tl : bytes_ok (h :: tl) -> (forall it, In it (queue h s) -> bytes_ok (it_data it)) -> exists m s' reply, decode (105 :: 5 :: h :: tl) = Ok m /\
  mstep s (EvMessage node m) = Some (s', [MIn node m; MSend (ByTask (length (m_tasks s))) node reply]) /\
  compose reply = Ok (match rev (queue h s) with [] => [105; 4; 9; h] | it :: r => [105; 4; match r with [] => 9 | _ => 1 end; h] ++ it_data it end) /\
  queue h s' = removelast (queue h s) /\ m_last s' = Some h.
Proof. exact (MailboxMore.last_flag_wake s node h tl). Qed.
Print Assumptions C62_wake.
(** the answer to an acknowledgement; handle 0 stands for the queue of the last wake-up *)
Theorem C62_ack s node b h0 tl h : bytes_ok (b :: h0 :: tl) -> b mod 8 = ACK -> (h0 <> 0 /\ h = h0 \/ h0 = 0 /\ m_last s = Some h) -> 0 <= h < 256 -> (forall it, In it (queue h s) -> bytes_ok (it_data it)) ->
  exists m s' reply, decode (105 :: 4 :: b :: h0 :: tl) = Ok m /\
  mstep s (EvMessage node m) = Some (s', [MIn node m; MSend (ByTask (length (m_tasks s))) node reply]) /\
  compose reply = Ok (match rev (queue h s) with [] => [105; 4; 9; h] | it :: r => [105; 4; match r with [] => 9 | _ => 1 end; h] ++ it_data it end) /\
  queue h s' = removelast (queue h s).
Proof. exact (MailboxMore.last_flag_ack s node b h0 tl h). Qed.
Print Assumptions C62_ack.
Example C62_example : exists s tr, mrun mbox0 (push_all 5 7 0 [[32; 1; 255]; [32; 1; 0]] ++ [EvMessage 5 (wake_msg 7)]) = Some (s, tr) /\
  m_last s = Some 7 /\ map it_data (queue 7 s) = [[32; 1; 255]] /\ 4 mod 8 = ACK /\
  exists m reply s', decode [105; 4; 4; 0] = Ok m /\ mstep s (EvMessage 5 m) = Some (s', [MIn 5 m; MSend (ByTask 3) 5 reply]) /\ compose reply = Ok [105; 4; 9; 7; 32; 1; 255].
Proof. ran. split; [reflexivity|]. split; [reflexivity|]. split; [reflexivity|]. eexists _, _, _. split; [vm_compute; reflexivity|]. split; [vm_compute; reflexivity|vm_compute; reflexivity]. Qed.

(** ** C63 *)
(** the delivery is not acknowledged; a later wake-up is told that there is nothing *)
Theorem C63_lost_refuted : exists s tr m, mrun mbox0 (push_all 5 1 0 [[32; 1; 255]] ++ [EvMessage 5 (wake_msg 1); EvSent 1 (Ok false); EvMessage 5 (wake_msg 1)]) = Some (s, tr) /\
  delivered 1 tr = [[32; 1; 255]] /\ queue 1 s = [] /\ sent_by 2 tr = [(5, m)] /\ compose m = Ok [105; 4; 9; 1].
Proof. eexists _, _, _. split; [vm_compute; reflexivity|]. repeat split; vm_compute; reflexivity. Qed.
Print Assumptions C63_lost_refuted.
(** a message leaves its queue only when it is handed over for delivery, last in first out; it enters it when its notice is acknowledged *)
Theorem C63_partial s e s' os h : mstep s e = Some (s', os) ->
  queue h s' = queue h s \/
  (exists t node d b, e = EvSent t (Ok true) /\ nth_error (m_tasks s) t = Some (MPush node h d) /\ queue h s' = queue h s ++ [mkItem node d b]) \/
  (exists node m it w reply, e = EvMessage node m /\ queue h s = queue h s' ++ [it] /\ os = [MIn node m; MSend w node reply] /\ delivers reply h (it_data it)).
Proof. exact (MailboxMore.queue_changes s e s' os h). Qed.
Print Assumptions C63_partial.

(** ** C64 *)
(** a heartbeat that takes five seconds delays the next one *)
Theorem C64_period_refuted : exists s tr, mrun mbox0 (push_all 5 1 0 [[32; 1; 255]] ++ [EvTick 60000; EvBeat 0; EvTick 5000; EvBeatSent 0 (Ok true); EvTick 60000; EvBeat 0]) = Some (s, tr) /\
  length (queue 1 s) = 1%nat /\ map (fun x => fst (fst x)) (heartbeats 0 tr) = [60000; 125000].
Proof. ran. split; reflexivity. Qed.
Print Assumptions C64_period_refuted.
(** a heartbeat that cannot be sent is the last one, though the message is queued *)
Theorem C64_ends_refuted : exists s tr, mrun mbox0 (push_all 5 1 0 [[32; 1; 255]] ++ [EvTick 60000; EvBeat 0; EvBeatSent 0 (Err EKey)]) = Some (s, tr) /\
  length (queue 1 s) = 1%nat /\ forall es s' tr', mexec s es s' tr' -> heartbeats 0 tr' = [].
Proof. ran. split; [reflexivity|]. intros es s' tr' X. eapply MailboxMore.over_stays; [exact X|reflexivity|reflexivity]. Qed.
Print Assumptions C64_ends_refuted.
(** each heartbeat says the right thing, and comes 60 seconds or more after the one before *)
Theorem C64_say_partial es s tr n0 t b : mexec mbox0 es s tr -> In (n0, MStored t b) tr -> exists x, nth_error (m_beats s) b = Some x /\ spaced n0 (heartbeats b tr) /\
  forall k n node m, nth_error (heartbeats b tr) k = Some (n, node, m) -> node = bt_node x /\ parts m = Some (if (Z.of_nat k + 1) mod 10 =? 0 then PING else WAITING, bt_handle x, Some (bt_data x)).
Proof. exact (MailboxMore.heartbeats_say es s tr n0 t b). Qed.
Print Assumptions C64_say_partial.
(** if heartbeats are sent without delay and without error, then one is sent every 60 seconds as long as the message is queued *)
Theorem C64_prompt_partial es s tr n0 t h it : prompt es s tr -> In it (queue h s) -> In (n0, MStored t (it_beat it)) tr ->
  let hb := heartbeats (it_beat it) tr in
  (forall k n node m, nth_error hb k = Some (n, node, m) -> n = n0 + 60000 * (Z.of_nat k + 1)) /\ n0 + 60000 * Z.of_nat (length hb) <= m_now s <= n0 + 60000 * (Z.of_nat (length hb) + 1).
Proof. exact (MailboxMore.heartbeats_prompt es s tr n0 t h it). Qed.
Print Assumptions C64_prompt_partial.
(** none after the message was delivered and acknowledged *)
Theorem C64_stops_partial es s tr t it s1 os es2 s2 tr2 : mexec mbox0 es s tr -> nth_error (m_tasks s) t = Some (MPop it) -> mstep s (EvSent t (Ok true)) = Some (s1, os) -> mexec s1 es2 s2 tr2 -> heartbeats (it_beat it) tr2 = [].
Proof. exact (MailboxMore.delivered_silent es s tr t it s1 os es2 s2 tr2). Qed.
Print Assumptions C64_stops_partial.
Definition minute : list mevent := [EvTick 60000; EvBeat 0; EvBeatSent 0 (Ok true)].
Example C64_example : exists s tr, mrun mbox0 (push_all 5 1 0 [[32; 1; 255]] ++ flat_map (fun _ => minute) (seq 0 11)) = Some (s, tr) /\ In (0, MStored 0 0) tr /\
  map (fun x => match parts (snd x) with Some (op, _, _) => op | None => -1 end) (heartbeats 0 tr) = [2; 2; 2; 2; 2; 2; 2; 2; 2; 3; 2] /\
  map (fun x => fst (fst x)) (heartbeats 0 tr) = map (fun k => 60000 * Z.of_nat k) (seq 1 11).
Proof. ran. split; [vm_compute; tauto|]. split; vm_compute; reflexivity. Qed.
Example C64_example_prompt : exists es s tr it, prompt es s tr /\ In it (queue 1 s) /\ In (0, MStored 0 (it_beat it)) tr /\ length (heartbeats (it_beat it) tr) = 1%nat.
Proof.
  exists [EvMessage 5 (push_msg 1 [32; 1; 255]); EvSent 0 (Ok true); EvTick 60000; EvBeat 0; EvBeatSent 0 (Ok true)]. eexists _, _, (mkItem 5 [32; 1; 255] 0). split.
  - eapply (PR_snoc [_; _; _; _]). eapply (PR_snoc [_; _; _]). eapply (PR_snoc [_; _]). eapply (PR_snoc [_]). eapply (PR_snoc []). apply PR_nil.
    all: try (vm_compute; reflexivity). all: try discriminate. all: try (intros X; exact X).
    intros dt [= <-] b x H. destruct b as [|[|b]]; try discriminate H. injection H as <-. cbn. lia.
  - vm_compute. tauto.
Qed.

(** ** C75 *)
(** two commands that set different values of one configuration parameter *)
Theorem C75_collision_refuted : exists s tr, [112; 4; 1; 4; 0; 0; 0; 0] <> [112; 4; 1; 4; 0; 1; 16; 33] /\
  mrun mbox0 [EvMessage 5 (push_msg 1 [112; 4; 1; 4; 0; 0; 0; 0]); EvSent 0 (Ok true); EvMessage 5 (push_msg 1 [112; 4; 1; 4; 0; 1; 16; 33])] = Some (s, tr) /\
  map it_data (queue 1 s) = [[112; 4; 1; 4; 0; 0; 0; 0]] /\ In (0, MRet 1 (Ok false)) tr.
Proof. eexists _, _. split; [discriminate|]. split; [vm_compute; reflexivity|]. split; [reflexivity|]. vm_compute. tauto. Qed.
Print Assumptions C75_collision_refuted.
(** a push is accepted unless a queued message has the same checksum, ... *)
Theorem C75_accepted_partial s node h d : (forall it, In it (queue h s) -> checksum (it_data it) <> checksum d) ->
  exists s' m, mstep s (EvMessage node (push_msg h d)) = Some (s', [MIn node (push_msg h d); MSend (ByTask (length (m_tasks s))) node m]) /\ parts m = Some (WAITING, h, Some d) /\
  m_tasks s' = m_tasks s ++ [MPush node h d].
Proof.
  intros N. destruct (MailboxProofs.push_new s node h d) as (s' & M & _ & T).
  - intros J. apply in_map_iff in J as (it & E & J). exact (N it J E).
  - eexists s', _. split; [exact M|]. split; [apply MailboxProofs.parts_qm|exact T].
Qed.
Print Assumptions C75_accepted_partial.
(** ... which is never so for messages that differ only in two neighbouring bytes ... *)
Theorem C75_burst_partial p q a b a' b' : bytes_ok (p ++ [a; b] ++ q) -> bytes_ok [a'; b'] -> checksum (p ++ [a; b] ++ q) = checksum (p ++ [a'; b'] ++ q) -> a = a' /\ b = b'.
Proof. exact (MailboxCrc.burst p q a b a' b'). Qed.
Print Assumptions C75_burst_partial.
(** ... and for messages one of which has an odd number of one bits and the other an even number *)
Theorem C75_parity_partial m m' : bytes_ok m -> bytes_ok m' -> checksum m = checksum m' -> fold_left xorb (bits_of m) false = fold_left xorb (bits_of m') false.
Proof. exact (MailboxCrc.same_parity m m'). Qed.
Print Assumptions C75_parity_partial.
Example C75_example : checksum [49; 50; 51; 52; 53; 54; 55; 56; 57] = 58828 /\ checksum [32; 1; 255] <> checksum [32; 1; 0].
Proof. split; [reflexivity|vm_compute; discriminate]. Qed.
