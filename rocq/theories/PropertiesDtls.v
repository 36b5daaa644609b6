(** C98-C100: the DTLS connection object.  Statements only; proofs are in DtlsProofs.v. *)
From Coq Require Import ZArith List Bool Lia.
From Verif Require Import Py DtlsM SpecDtls.
From Verif Require DtlsProofs.
Import ListNotations.
Open Scope Z_scope.

(** ** C98 *)
(** the callback is taken away after the thread has looked whether there is one: the event loop calls None *)
Definition z_race : list devent := [DSet (Some 1%nat); DConnect; DOpened; DThread; DThread; DThread; DRecv [1; 2] 7; DThread; DSet None; DThread; DLoop; DLoop].
Theorem C98_none_refuted : exists s tr, dexec dtls0 z_race s tr /\ reads tr = [([1; 2], None)] /\ delivered tr = [] /\ seen YTypeError tr.
Proof. eexists _, _. split; [apply DtlsProofs.drun_exec; vm_compute; reflexivity|]. repeat (split; [reflexivity|]). exists 0. vm_compute. tauto. Qed.
Print Assumptions C98_none_refuted.
(** the callback is replaced: another callback gets the packet than the one registered when it was read *)
Definition z_other : list devent := [DSet (Some 1%nat); DConnect; DOpened; DThread; DThread; DThread; DRecv [1; 2] 7; DSet (Some 2%nat); DThread; DThread; DLoop; DLoop].
Theorem C98_replaced_refuted : exists s tr a n b, dexec dtls0 z_other s tr /\ tr = a ++ (n, YRead false [1; 2] 7) :: b /\ registered None a = Some 1%nat /\ delivered tr = [(2%nat, [1; 2], None)].
Proof. eexists _, _, [_; _; _], _, _. split; [apply DtlsProofs.drun_exec; vm_compute; reflexivity|]. split; [vm_compute; reflexivity|]. split; reflexivity. Qed.
Print Assumptions C98_replaced_refuted.
(** What holds while the callback is the same whenever a packet is read and afterwards: the packets read are passed to it in order, each once, the sender for a
    server only, nothing else is, and the two threads need only go on for all of them to be passed *)
Theorem C98_partial es s tr k : dexec dtls0 es s tr -> steady k tr ->
  ~ seen YTypeError tr /\ (exists rest, map (fun x => (k, fst x, snd x)) (reads tr) = delivered tr ++ rest) /\
  exists es' s' tr', going_on es' /\ dexec s es' s' tr' /\ reads tr' = [] /\ delivered (tr ++ tr') = map (fun x => (k, fst x, snd x)) (reads tr).
Proof. exact (DtlsProofs.packets_delivered es s tr k). Qed.
Print Assumptions C98_partial.
(** whatever is done with the callback: what is delivered was read, in this order, and at most once *)
Theorem C98_order_partial es s tr : dexec dtls0 es s tr -> subseq (map (fun x => (snd (fst x), snd x)) (delivered tr)) (reads tr).
Proof. exact (DtlsProofs.delivered_read es s tr). Qed.
Print Assumptions C98_order_partial.
(** a server reads two packets; the second is still on its way *)
Definition z_server : list devent := [DSet (Some 1%nat); DListen; DOpened; DThread; DThread; DThread; DRecv [1] 7; DThread; DThread; DThread; DLoop; DLoop; DRecv [2] 8; DThread].
Example C98_example : exists s tr, dexec dtls0 z_server s tr /\ steady 1 tr /\ reads tr = [([1], Some 7); ([2], Some 8)] /\ delivered tr = [(1%nat, [1], Some 7)].
Proof.
  eexists _, _. split; [apply DtlsProofs.drun_exec; vm_compute; reflexivity|]. split; [|split; reflexivity].
  intros a n sv p ad b E. destruct a as [|x a]; cbn in E; [discriminate E|injection E as <- E]. destruct a as [|x a]; cbn in E; [discriminate E|injection E as <- E].
  destruct a as [|x a]; cbn in E; [discriminate E|injection E as <- E]. destruct a as [|x a]; cbn in E.
  { injection E as <- <- <- <- <-. split; [reflexivity|]. intros m cb J. cbn in J. intuition discriminate. }
  injection E as <- E. destruct a as [|x a]; cbn in E; [discriminate E|injection E as <- E]. destruct a as [|x a]; cbn in E.
  { injection E as <- <- <- <- <-. split; [reflexivity|]. intros m cb []. }
  injection E as <- E. destruct a; discriminate E.
Qed.

(** ** C99 *)
(** stop() right after connect() has returned: the thread has not set its flag yet, sets it after that, and goes on for ever *)
Definition z_start : list devent := [DSet (Some 1%nat); DConnect; DOpened; DThread; DLoop; DResume 0; DStop; DThread].
Fixpoint z_loop (n : nat) : list devent := match n with O => [] | S n => [DThread; DRecv [5] 7; DThread; DThread; DLoop] ++ z_loop n end.
Theorem C99_lost_refuted : forall n, exists s tr a b, dexec dtls0 (z_start ++ z_loop n) s tr /\ tr = a ++ (0, YStop) :: b /\ seen (YReady 0) a /\ delivered b = repeat (1%nat, [5], None) n.
Proof.
  intros n. set (s1 := mkD 0 true true false (Some 1%nat) true TTest [] [WDone]).
  assert (L : exists tr, dexec s1 (z_loop n) s1 tr /\ delivered tr = repeat (1%nat, [5], None) n).
  { induction n as [|n (tr & X & D)]; [exists []; split; [constructor|reflexivity]|].
    assert (X1 : dexec s1 [DThread; DRecv [5] 7; DThread; DThread; DLoop] s1 [(0, YRead false [5] 7); (0, YDeliver 1 [5] None)]) by (apply DtlsProofs.drun_exec; reflexivity).
    eexists. split; [exact (DtlsProofs.dexec_app _ _ _ _ _ _ _ X1 X)|]. cbn. f_equal. exact D. }
  destruct L as (tr & X & D).
  assert (X0 : dexec dtls0 z_start s1 ([(0, YSet (Some 1%nat)); (0, YCall 0); (0, YOpened false); (0, YReady 0)] ++ [(0, YStop)])) by (apply DtlsProofs.drun_exec; reflexivity).
  eexists _, _, _, _. split; [exact (DtlsProofs.dexec_app _ _ _ _ _ _ _ X0 X)|]. split; [rewrite <- app_assoc; reflexivity|]. split; [exists 0; cbn; tauto|exact D].
Qed.
Print Assumptions C99_lost_refuted.
(** stop() while the thread waits for a packet: one more is read and delivered, and what is sent is still written *)
Definition z_stop : list devent := [DSet (Some 1%nat); DConnect; DOpened; DThread; DLoop; DResume 0; DThread; DThread; DRecv [1] 7; DThread; DThread; DLoop; DThread; DStop; DRecv [2] 7; DThread; DThread; DThread; DLoop; DSend [3] (Ok tt)].
Theorem C99_one_more_refuted : exists s tr a b, dexec dtls0 z_stop s tr /\ tr = a ++ (0, YStop) :: b /\ delivered b = [(1%nat, [2], None)] /\ seen (YWrite [3]) b.
Proof.
  eexists _, _, [_; _; _; _; _; _], _. split; [apply DtlsProofs.drun_exec; vm_compute; reflexivity|]. split; [vm_compute; reflexivity|]. split; [reflexivity|]. exists 0. cbn. tauto.
Qed.
Print Assumptions C99_one_more_refuted.
(** What holds: once a packet has been read, at most one more is read after stop() *)
Theorem C99_partial es s a n b : dexec dtls0 es s (a ++ (n, YStop) :: b) -> (exists sv p ad, seen (YRead sv p ad) a) -> (length (reads b) <= 1)%nat.
Proof. exact (DtlsProofs.stop_one_more es s a n b). Qed.
Print Assumptions C99_partial.
Example C99_example : exists s a b, dexec dtls0 z_stop s (a ++ (0, YStop) :: b) /\ (exists sv p ad, seen (YRead sv p ad) a) /\ length (reads b) = 1%nat.
Proof.
  eexists _, [_; _; _; _; _; _], _. split; [apply DtlsProofs.drun_exec; vm_compute; reflexivity|]. split; [|reflexivity]. exists false, [1], 7. exists 0. cbn. tauto.
Qed.
(** and the thread only ends by stop(), by an error of the socket or because there never was one *)
Theorem C99_alive_partial es s tr : dexec dtls0 es s tr -> seen YEnded tr -> In DStop es \/ In (DRecvErr false) es \/ In DOpenFailed es.
Proof. exact (DtlsProofs.ends_by es s tr). Qed.
Print Assumptions C99_alive_partial.
Example C99_alive_example : exists s tr, dexec dtls0 z_stop s tr /\ seen YEnded tr.
Proof. eexists _, _. split; [apply DtlsProofs.drun_exec; vm_compute; reflexivity|]. exists 0. vm_compute. tauto. Qed.

(** ** C100 *)
(** an object can be connected once: after stop() and the end of the thread connect() raises RuntimeError *)
Definition z_again : list devent := [DConnect; DOpened; DThread; DLoop; DResume 0; DThread; DStop; DThread; DConnect].
Theorem C100_again_refuted : exists s tr, dexec dtls0 z_again s tr /\ seen YEnded tr /\ seen (YRuntime 1) tr.
Proof. eexists _, _. split; [apply DtlsProofs.drun_exec; vm_compute; reflexivity|]. split; exists 0; vm_compute; tauto. Qed.
Print Assumptions C100_again_refuted.
(** bytes sent before the socket is there are lost, and send() does not say so *)
Theorem C100_lost_refuted : exists s tr, dexec dtls0 [DConnect; DSend [3] (Ok tt); DOpened] s tr /\ seen (YSend [3] (Ok tt)) tr /\ ~ seen (YWrite [3]) tr.
Proof.
  eexists _, _. split; [apply DtlsProofs.drun_exec; vm_compute; reflexivity|]. split; [exists 0; vm_compute; tauto|]. intros [n H]. cbn in H. intuition discriminate.
Qed.
Print Assumptions C100_lost_refuted.
(** What holds: connect() returns only when the socket is there *)
Theorem C100_partial es s a n t b : dexec dtls0 es s (a ++ (n, YReady t) :: b) -> opened a /\ seen (YCall t) a.
Proof. exact (DtlsProofs.story es s a n (YReady t) b). Qed.
Print Assumptions C100_partial.
(** it raises TimeoutError only after ten seconds *)
Theorem C100_timeout_partial es s a n t b : dexec dtls0 es s (a ++ (n, YTimeout t) :: b) -> exists m, In (m, YCall t) a /\ m + 10000 <= n.
Proof. exact (DtlsProofs.story es s a n (YTimeout t) b). Qed.
Print Assumptions C100_timeout_partial.
(** and RuntimeError only if the object was used before *)
Theorem C100_once_partial es s a n t b : dexec dtls0 es s (a ++ (n, YRuntime t) :: b) -> (exists u, u <> t /\ seen (YCall u) a) \/ seen (YListen (Ok tt)) a.
Proof. exact (DtlsProofs.story es s a n (YRuntime t) b). Qed.
Print Assumptions C100_once_partial.
(** when the socket is there, the two threads need only go on for a connect() that has not ended to return *)
Theorem C100_returns_partial es s tr t : dexec dtls0 es s tr -> opened tr -> seen (YCall t) tr -> ~ seen (YReady t) tr -> ~ seen (YTimeout t) tr -> ~ seen (YRuntime t) tr ->
  exists es' s' tr', going_on es' /\ dexec s (es' ++ [DResume t]) s' tr' /\ seen (YReady t) tr'.
Proof. exact (DtlsProofs.connect_goes_on es s tr t). Qed.
Print Assumptions C100_returns_partial.
(** nothing is written before, and a send() that returns after that has written its bytes *)
Theorem C100_write_partial es s a n m b : dexec dtls0 es s (a ++ (n, YWrite m) :: b) -> opened a.
Proof. exact (DtlsProofs.story es s a n (YWrite m) b). Qed.
Print Assumptions C100_write_partial.
Theorem C100_send_partial es s a n m b : dexec dtls0 es s (a ++ (n, YSend m (Ok tt)) :: b) -> opened a -> exists a', a = a' ++ [(n, YWrite m)].
Proof. exact (DtlsProofs.story es s a n (YSend m (Ok tt)) b). Qed.
Print Assumptions C100_send_partial.
(** a connect that returns, bytes that are sent, a second connect; and one that times out *)
Example C100_example : exists s tr, dexec dtls0 [DConnect; DOpened; DThread; DLoop; DResume 0; DSend [3] (Ok tt); DConnect] s tr /\
  tr = [(0, YCall 0); (0, YOpened false); (0, YReady 0); (0, YWrite [3]); (0, YSend [3] (Ok tt)); (0, YCall 1); (0, YRuntime 1)].
Proof. eexists _, _. split; [apply DtlsProofs.drun_exec; vm_compute; reflexivity|]. reflexivity. Qed.
Example C100_timeout_example : exists s tr, dexec dtls0 [DConnect; DAdvance 10000; DTimer 0] s tr /\ tr = [(0, YCall 0); (10000, YTimeout 0)].
Proof. eexists _, _. split; [apply DtlsProofs.drun_exec; vm_compute; reflexivity|]. reflexivity. Qed.
Example C100_returns_example : exists s tr, dexec dtls0 [DConnect; DOpened] s tr /\ opened tr /\ seen (YCall 0) tr /\ ~ seen (YReady 0) tr /\ ~ seen (YTimeout 0) tr /\ ~ seen (YRuntime 0) tr.
Proof.
  eexists _, _. split; [apply DtlsProofs.drun_exec; vm_compute; reflexivity|]. split; [exists false, 0; cbn; tauto|]. split; [exists 0; cbn; tauto|].
  repeat split; intros [n H]; cbn in H; intuition discriminate.
Qed.
