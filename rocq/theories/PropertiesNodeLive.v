(** C106: no request of a node is forgotten.  Statements only; proofs are in NodeLive.v. *)
From Coq Require Import String ZArith List Bool Lia.
From Verif Require Import Py BitStream Schema Registry Codec Waiter Conn NodeReq SpecNodeReq SpecNodeLive.
From Verif Require NodeLive.
Import ListNotations.
Open Scope list_scope.
Open Scope string_scope.
Open Scope list_scope.
Open Scope Z_scope.

(** ** C106 *)
(** a request that has not ended either still waits for its command to be sent, and goes on however that ends, or waits for the
    answer, and takes a step once its patience is over *)
Theorem C106_alive es s tr n t c : nexec nstate0 es s tr -> In (n, NCall t c) tr -> nrunning tr t ->
  ((exists h tmo, c = NReq h tmo) /\ (forall m r, ~ In (m, NSent t r) tr) /\ forall r, nstep s (NEvSent t r) <> None) \/
  (exists T, waits_from tr T t c /\ forall dt, 0 <= dt -> T + patience c <= n_now s + dt -> exists s', nstep s (NEvAdvance dt) = Some (s', []) /\ npossible s' t).
Proof. exact (NodeLive.alive es s tr n t c). Qed.
Print Assumptions C106_alive.
(** it takes three steps at most, whatever arrives *)
Theorem C106_few es s tr t : nexec nstate0 es s tr -> (ncount (nown t) es <= 3)%nat.
Proof. exact (NodeLive.few es s tr t). Qed.
Print Assumptions C106_few.
(** so it ends by itself *)
Theorem C106_ends es s tr n t c T : nexec nstate0 es s tr -> In (n, NCall t c) tr -> nrunning tr t -> waits_from tr T t c ->
  exists es2 s2 tr2 m r, nexec s es2 s2 tr2 /\ Forall (fun e => nown t e = true \/ exists dt, e = NEvAdvance dt) es2 /\ In (m, NRet t r) tr2.
Proof. exact (NodeLive.ends es s tr n t c T). Qed.
Print Assumptions C106_ends.
(** with an event loop that does not fall behind, it ends within its time out *)
Theorem C106_in_time es s tr n t c T : nprompt nstate0 es s tr -> In (n, NCall t c) tr -> waits_from tr T t c ->
  (forall m r, In (m, NRet t r) tr -> m <= T + patience c) /\ ((forall m r, ~ In (m, NRet t r) tr) -> n_now s <= T + patience c).
Proof. exact (NodeLive.in_time es s tr n t c T). Qed.
Print Assumptions C106_in_time.
(** a request acknowledged after 40 milliseconds that is answered by something else only, and one that is still being sent *)
Definition x_report (v : Z) : val := VObj (CMsg m_Basic_Report) [("value", VI false 1 v)].
Definition x_other : val := VObj (CMsg m_Basic_Set) [("value", VI false 1 1)].
Definition x_req : ncall := NReq (hid (x_report 0)) 3000.
Definition x_mute : list nevent :=
  [NEvCall x_req; NEvCall (NReq 7 1000); NEvAdvance 40; NEvSent 0 (Ok true); NEvAdvance 100; NEvMessage x_other; NEvAdvance 2900; NEvTimer 0; NEvResume 0; NEvResume 0].
Definition x_shown : ntrace := match nrun nstate0 x_mute with Some (_, tr) => tr | None => [] end.
Definition x_end : nstate := match nrun nstate0 x_mute with Some (s, _) => s | None => nstate0 end.
Example C106_case : nprompt nstate0 x_mute x_end x_shown /\ waits_from x_shown 40 0 x_req /\ patience x_req = 3000 /\
  In (3040, NRet 0 (RExc ETimeout)) x_shown /\ ncount (nown 0) x_mute = 3%nat /\ nrunning x_shown 1.
Proof.
  split; [apply NodeLive.nprompt_ok; vm_compute; reflexivity|]. split; [vm_compute; tauto|]. split; [reflexivity|]. split; [vm_compute; tauto|]. split; [reflexivity|].
  split; [exists 0, (NReq 7 1000); vm_compute; tauto|]. intros n r J. vm_compute in J. intuition congruence.
Qed.
(** while it waits it is running and is covered by the statements above *)
Example C106_waiting : exists s tr, nrun nstate0 (firstn 6 x_mute) = Some (s, tr) /\ nrunning tr 0 /\ waits_from tr 40 0 x_req.
Proof.
  eexists _, _. split; [vm_compute; reflexivity|]. split; [|vm_compute; tauto]. split; [exists 0, x_req; vm_compute; tauto|].
  intros n r J. vm_compute in J. intuition congruence.
Qed.
