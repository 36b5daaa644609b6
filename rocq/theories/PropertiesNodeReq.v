(** C38, C39: a node's request/response calls.  Statements only; proofs are in NodeReqProofs.v. *)
From Coq Require Import String ZArith List Bool Lia.
From Verif Require Import Py Schema Registry Codec Conn NodeReq SpecNodeReq.
From Verif Require NodeReqProofs.
Import ListNotations.
Open Scope list_scope.
Open Scope string_scope.
Open Scope list_scope.
Open Scope Z_scope.

Definition x_report (v : Z) : val := VObj (CMsg m_Basic_Report) [("value", VI false 1 v)].
Definition x_other : val := VObj (CMsg m_Basic_Set) [("value", VI false 1 1)].
Definition x_h : Z := hid (x_report 0).

(** ** C38 *)
(** the only call on an idle node; the report comes in while the command awaits its acknowledgement, and the call times out *)
Definition x_early : list nevent :=
  [NEvCall (NReq x_h 3000); NEvAdvance 10; NEvMessage (x_report 7); NEvAdvance 10; NEvSent 0 (Ok true); NEvAdvance 3000; NEvTimer 0; NEvResume 0; NEvResume 0].
Theorem C38_early_refuted : exists es s tr, nexec nstate0 es s tr /\ alone 0 x_h tr /\ In (0, NCall 0 (NReq x_h 3000)) tr /\ In (20, NSent 0 (Ok true)) tr /\
  hits x_h (since_call 0 tr) = [(10, x_report 7, Ok true)] /\ In (3020, NRet 0 (RExc ETimeout)) tr.
Proof.
  exists x_early. eexists _, _. split; [apply NodeReqProofs.nrun_exec; vm_compute; reflexivity|].
  split; [intros n t' c H _; vm_compute in H; repeat (destruct H as [H|H]; [congruence|]); destruct H|]. vm_compute. tauto.
Qed.
Print Assumptions C38_early_refuted.
(** what holds: the first report after the acknowledgement, within the time limit, is the answer *)
Theorem C38_partial es s tr t h tmo n T n' r : 0 < tmo -> nexec nstate0 es s tr -> alone t h tr ->
  In (n, NCall t (NReq h tmo)) tr -> In (T, NSent t (Ok true)) tr -> In (n', NRet t r) tr -> r <> RExc ECancelled ->
  match hits h (since_sent t tr) with
  | [] => r = RExc ETimeout
  | (a, m, _) :: _ => r = RMsg m \/ (r = RExc ETimeout /\ T + tmo <= a)
  end.
Proof. exact (NodeReqProofs.request_answer es s tr t h tmo n T n' r). Qed.
Print Assumptions C38_partial.
(** and the call can return it as soon as it has come *)
Theorem C38_ready_partial es s tr t h tmo T a m z rest c h' f dl ph : 0 < tmo -> nexec nstate0 es s tr -> alone t h tr ->
  c = NReq h tmo -> nth_error (n_tasks s) t = Some (mkNT c (NWaiting h' f dl ph)) -> In (T, NSent t (Ok true)) tr ->
  hits h (since_sent t tr) = (a, m, z) :: rest -> a < T + tmo ->
  exists s', nstep s (NEvResume t) = Some (s', [NRet t (RMsg m)]).
Proof. exact (NodeReqProofs.request_ready es s tr t h tmo T a m z rest c h' f dl ph). Qed.
Print Assumptions C38_ready_partial.
(** one report before the acknowledgement (lost), another kind of message, and two after it, the first of which is returned *)
Definition x_later : list nevent :=
  [NEvCall (NReq x_h 3000); NEvMessage (x_report 7); NEvSent 0 (Ok true); NEvMessage x_other; NEvAdvance 2000; NEvMessage (x_report 8); NEvMessage (x_report 9)].
Example C38_example : exists s tr, nexec nstate0 (x_later ++ [NEvResume 0]) s tr /\ alone 0 x_h tr /\ In (0, NCall 0 (NReq x_h 3000)) tr /\ In (0, NSent 0 (Ok true)) tr /\
  In (2000, NRet 0 (RMsg (x_report 8))) tr /\ hits x_h (since_sent 0 tr) = [(2000, x_report 8, Ok true); (2000, x_report 9, Ok false)].
Proof.
  eexists _, _. split; [apply NodeReqProofs.nrun_exec; vm_compute; reflexivity|].
  split; [intros n t' c H _; vm_compute in H; repeat (destruct H as [H|H]; [congruence|]); destruct H|]. vm_compute. tauto.
Qed.
Example C38_example_ready : exists s tr f dl ph, nexec nstate0 x_later s tr /\ alone 0 x_h tr /\ nth_error (n_tasks s) 0 = Some (mkNT (NReq x_h 3000) (NWaiting x_h f dl ph)) /\
  In (0, NSent 0 (Ok true)) tr /\ exists rest, hits x_h (since_sent 0 tr) = (2000, x_report 8, Ok true) :: rest.
Proof.
  eexists _, _, _, _, _. split; [apply NodeReqProofs.nrun_exec; vm_compute; reflexivity|].
  split; [intros n t' c H _; vm_compute in H; repeat (destruct H as [H|H]; [congruence|]); destruct H|]. split; [vm_compute; reflexivity|].
  split; [vm_compute; tauto|]. eexists. vm_compute. reflexivity.
Qed.

(** ** C39 *)
(** the request fails at 10; a report at 5000 is taken by nobody's waiter and never reaches the handlers; without the request it would have *)
Theorem C39_swallowed_refuted :
  (exists es s tr, nexec nstate0 es s tr /\ alone 0 x_h tr /\ In (10, NRet 0 (RExc ETimeout)) tr /\ In (5010, NRecv (x_report 7) (Ok true)) tr /\ forall r n t', In (n, NRet t' r) tr -> r = RExc ETimeout) /\
  (exists es s tr, nexec nstate0 es s tr /\ In (5010, NRecv (x_report 7) (Ok false)) tr).
Proof.
  split.
  - exists [NEvCall (NReq x_h 3000); NEvAdvance 10; NEvSent 0 (Ok false); NEvAdvance 5000; NEvMessage (x_report 7)]. eexists _, _.
    split; [apply NodeReqProofs.nrun_exec; vm_compute; reflexivity|].
    split; [intros n t' c H _; vm_compute in H; repeat (destruct H as [H|H]; [congruence|]); destruct H|]. split; [vm_compute; tauto|]. split; [vm_compute; tauto|].
    intros r n t' H. vm_compute in H. repeat (destruct H as [H|H]; [congruence|]). destruct H.
  - exists [NEvAdvance 5010; NEvMessage (x_report 7)]. eexists _, _. split; [apply NodeReqProofs.nrun_exec; vm_compute; reflexivity|]. vm_compute. tauto.
Qed.
Print Assumptions C39_swallowed_refuted.
(** what holds: a request that was never acknowledged takes away at most the next report of its type *)
Theorem C39_partial es s tr t h tmo n : 0 < tmo -> nexec nstate0 es s tr -> alone t h tr -> In (n, NCall t (NReq h tmo)) tr ->
  (forall T, ~ In (T, NSent t (Ok true)) tr) ->
  match hits h (since_call t tr) with
  | [] => True
  | (_, _, x) :: rest => x = Ok true /\ Forall (fun e => snd e = Ok false) rest
  end.
Proof. exact (NodeReqProofs.request_failed es s tr t h tmo n). Qed.
Print Assumptions C39_partial.
(** and messages of types never asked for are always left to the handlers *)
Theorem C39_others_partial es s tr h : nexec nstate0 es s tr -> (forall n t c, In (n, NCall t c) tr -> ncall_hid c <> h) ->
  forall n m r, In (n, NRecv m r) tr -> hid m = h -> r = Ok false.
Proof. intros X A. exact (proj2 (proj2 (NodeReqProofs.unasked es s tr h X A))). Qed.
Print Assumptions C39_others_partial.
Example C39_example : exists es s tr, nexec nstate0 es s tr /\ alone 0 x_h tr /\ In (0, NCall 0 (NReq x_h 3000)) tr /\ (forall T, ~ In (T, NSent 0 (Ok true)) tr) /\
  hits x_h (since_call 0 tr) = [(0, x_report 7, Ok true); (0, x_report 8, Ok false)] /\ In (0, NRecv x_other (Ok false)) tr /\ hid x_other <> x_h.
Proof.
  exists [NEvCall (NReq x_h 3000); NEvSent 0 (Err ETimeout); NEvMessage x_other; NEvMessage (x_report 7); NEvMessage (x_report 8)]. eexists _, _.
  split; [apply NodeReqProofs.nrun_exec; vm_compute; reflexivity|].
  split; [intros n t' c H _; vm_compute in H; repeat (destruct H as [H|H]; [congruence|]); destruct H|]. split; [vm_compute; tauto|].
  split; [intros T H; vm_compute in H; repeat (destruct H as [H|H]; [congruence|]); destruct H|]. split; [vm_compute; reflexivity|]. split; [vm_compute; tauto|]. vm_compute. discriminate.
Qed.
