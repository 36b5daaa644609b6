(** C103: no call of a Z/IP connection is forgotten.  Statements only; proofs are in ConnLive.v. *)
From Coq Require Import String ZArith List Bool Lia.
From Verif Require Import Py BitStream Schema Registry Codec Waiter Conn SpecConn SpecLive ConnWitness.
From Verif Require ConnLive.
Import ListNotations.
Open Scope list_scope.
Open Scope string_scope.
Open Scope list_scope.
Open Scope Z_scope.

(** ** C103 *)
(** a call that has not ended is never stuck: once the time it may take has passed, its timer fires or it is resumed *)
Theorem C103_alive es s tr t dt : exec conn0 es s tr -> running tr t -> allowance tr t <= dt -> exists s', step s (EvAdvance dt) = Some (s', []) /\ possible s' t.
Proof. exact (ConnLive.alive es s tr t dt). Qed.
Print Assumptions C103_alive.
(** it takes at most seven steps from any moment on, and one more for every datagram that arrives *)
Theorem C103_few es1 s1 tr1 es2 s2 tr2 t : exec conn0 es1 s1 tr1 -> exec s1 es2 s2 tr2 -> (count (own t) es2 <= 7 + count is_packet es2)%nat.
Proof. exact (ConnLive.few es1 s1 tr1 es2 s2 tr2 t). Qed.
Print Assumptions C103_few.
(** so it ends without help of any other call or of the peer *)
Theorem C103_ends es s tr t : exec conn0 es s tr -> running tr t ->
  exists es2 s2 tr2 n r, exec s es2 s2 tr2 /\ Forall (fun e => own t e = true \/ exists dt, e = EvAdvance dt) es2 /\ In (n, ORet t r) tr2.
Proof. exact (ConnLive.ends es s tr t). Qed.
Print Assumptions C103_ends.
(** with an event loop that does not fall behind, it ends within its time outs and the extensions it was granted *)
Theorem C103_in_time es s tr n t c : prompt_exec conn0 es s tr -> In (n, OCall t c) tr ->
  (forall m r, In (m, ORet t r) tr -> m <= n + allowance tr t) /\ ((forall m r, ~ In (m, ORet t r) tr) -> c_now s <= n + allowance tr t).
Proof. exact (ConnLive.in_time es s tr n t c). Qed.
Print Assumptions C103_in_time.
(** a sendAndReceive that is neither acknowledged nor answered: 3 seconds for the acknowledgement, 5 for the reply *)
Definition x_slow : list event := [EvConnect; EvCall (CSendRecv x_get 0 0 x_hid 5000); EvAdvance 3000; EvTimer 0; EvResume 0; EvResume 0; EvAdvance 5000; EvTimer 0; EvResume 0; EvResume 0].
Example C103_case :
  (exists s tr, prompt_exec conn0 x_slow s tr /\ In (0, OCall 0 (CSendRecv x_get 0 0 x_hid 5000)) tr /\ In (8000, ORet 0 (RExc ETimeout)) tr /\ allowance tr 0 = 8000) /\
  running (shown [EvConnect; x_send; x_send]) 1 /\ count (own 0) x_slow = 6%nat.
Proof.
  split; [|split; [split; [exists 0, (CSend x_get 0 0 3000); vm_compute; tauto|intros n r J; vm_compute in J; intuition congruence]|reflexivity]].
  exists (after x_slow), (shown x_slow). split; [|split; [vm_compute; tauto|split; [vm_compute; tauto|vm_compute; reflexivity]]].
  apply ConnLive.prompt_run_ok. vm_compute. reflexivity.
Qed.
