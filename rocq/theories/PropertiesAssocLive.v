(** C116: interviews of associations and sensors end.  Statements only; proofs are in AssocLive.v. *)
From Coq Require Import String ZArith List Bool Lia.
From Verif Require Import Py Schema Registry Codec Waiter Conn NodeReq SpecNodeLive NodeM CmdClass AssocM SpecAssoc SpecAssocLive.
From Verif Require AssocLive AssocFresh.
Import ListNotations.
Open Scope list_scope.
Open Scope string_scope.
Open Scope list_scope.
Open Scope Z_scope.

(** ** C116 *)
(** wherever an interview is, it ends by itself, however sending its commands ends and even if nothing is ever received *)
Theorem C116_ends c gs ts es s tr t : pexec (pstate0 c gs ts) es s tr -> popen tr t -> forall net,
  exists es2 s2 tr2 n r, pexec s es2 s2 tr2 /\ Forall (helps t (tr ++ tr2)) es2 /\ outcome net es2 /\ In (n, PODone t r) tr2.
Proof. intros X O net. exact (AssocLive.ends c gs ts net es s tr t X O). Qed.
Print Assumptions C116_ends.
(** it asks a limited number of questions, whatever other interviews do meanwhile *)
Theorem C116_few c gs ts es s tr n t : pexec (pstate0 c gs ts) es s tr -> In (n, POCall t PAssoc) tr ->
  (length (questions t tr) <= 2 + length (p_groups s))%nat /\ (length (sends t tr) <= 1)%nat.
Proof. exact (AssocLive.few_assoc c gs ts es s tr n t). Qed.
Print Assumptions C116_few.
Theorem C116_few_sensors c gs ts es s tr n t v od : pexec (pstate0 c gs ts) es s tr -> In (n, POCall t (PSensor v od)) tr ->
  length (sends t tr) = 0%nat /\ ((length (questions t tr) <= 1)%nat \/
    exists m l, got_back t sensor_question (RMsg m) tr /\ getattr m "bitMask" = VSensors l /\ (length (questions t tr) <= 1 + length (od l))%nat).
Proof. exact (AssocLive.few_sensor c gs ts es s tr n t v od). Qed.
Print Assumptions C116_few_sensors.
(** with an event loop that does not fall behind it ends in the time its questions and its command take *)
Theorem C116_in_time D c gs ts es s tr n t x : 0 <= D -> timely D (pstate0 c gs ts) es s tr -> In (n, POCall t x) tr ->
  (forall m r, In (m, PODone t r) tr -> m <= n + allowed D t tr) /\ ((forall m r, ~ In (m, PODone t r) tr) -> n_now (p_net s) <= n + allowed D t tr).
Proof. intros D0 X J. exact (AssocLive.in_time D D0 c gs ts es s tr n t x X J). Qed.
Print Assumptions C116_in_time.

(** a node with one group: the first question is answered, the second is not, the lifeline is set up without an acknowledgement, and so is the last question *)
Definition x_plus : classes := mkCls [(94, false); (133, false)] [].
Definition x_count : val := match decode [133; 6; 1] with Ok m => m | Err _ => VNone end.
Definition x_run : list pevent :=
  [PCall PAssoc; PNet (NEvAdvance 40); PNet (NEvSent 0 (Ok true)); PNet (NEvMessage x_count); PNet (NEvResume 0);
   PNet (NEvAdvance 50); PNet (NEvSent 1 (Ok true)); PNet (NEvAdvance 3000); PNet (NEvTimer 1); PNet (NEvResume 1); PNet (NEvResume 1);
   PNet (NEvAdvance 100); PSent 0 (Ok false); PNet (NEvAdvance 100); PNet (NEvSent 2 (Ok false))].
Definition x_shown : ptrace := match prun (pstate0 x_plus [] []) x_run with Some (_, tr) => tr | None => [] end.
Definition x_end : pstate := match prun (pstate0 x_plus [] []) x_run with Some (s, _) => s | None => pstate0 x_plus [] [] end.
Example C116_case : timely 100 (pstate0 x_plus [] []) x_run x_end x_shown /\ In (0, POCall 0 PAssoc) x_shown /\ In (3290, PODone 0 (Err ETimeout)) x_shown /\
  length (questions 0 x_shown) = 3%nat /\ length (sends 0 x_shown) = 1%nat /\ length (p_groups x_end) = 1%nat /\ allowed 100 0 x_shown = 9400.
Proof.
  split; [apply (AssocLive.timely_ok 100 (pstate0 x_plus [] []) x_run [] (pstate0 x_plus [] []) []); [constructor|vm_compute; reflexivity]|].
  split; [vm_compute; tauto|]. split; [vm_compute; tauto|]. repeat split.
Qed.
(** before that it is open, and covered by the first statement *)
Example C116_open : exists s tr, pexec (pstate0 x_plus [] []) (firstn 8 x_run) s tr /\ popen tr 0.
Proof.
  eexists _, _. split; [apply AssocFresh.prun_exec; vm_compute; reflexivity|]. split; [exists 0, PAssoc; vm_compute; tauto|]. intros n r J. vm_compute in J. repeat (destruct J as [J|J]; [discriminate J|]). destruct J.
Qed.
(** two sensors, the first with scales *)
Definition x_sensors : val := match decode [49; 2; 3] with Ok m => m | Err _ => VNone end.
Definition x_sensor_run : list pevent := [PCall (PSensor 5 (fun l => l)); PNet (NEvSent 0 (Ok true)); PNet (NEvMessage x_sensors); PNet (NEvResume 0)].
Example C116_sensors : exists s tr m l, pexec (pstate0 x_plus [] []) x_sensor_run s tr /\ (exists od, In (0, POCall 0 (PSensor 5 od)) tr) /\ popen tr 0 /\
  got_back 0 sensor_question (RMsg m) tr /\ getattr m "bitMask" = VSensors l /\ length l = 2%nat /\ length (questions 0 tr) = 2%nat.
Proof.
  eexists _, _, x_sensors, _. split; [apply AssocFresh.prun_exec; vm_compute; reflexivity|]. split; [eexists; left; reflexivity|]. split; [|split; [|split; [vm_compute; reflexivity|split; vm_compute; reflexivity]]].
  - split; [exists 0; eexists; left; reflexivity|]. intros n r J. vm_compute in J. repeat (destruct J as [J|J]; [discriminate J|]). destruct J.
  - exists 0, 0, 0%nat. eexists. split; [right; left; reflexivity|]. split; [vm_compute; reflexivity|]. vm_compute. tauto.
Qed.
