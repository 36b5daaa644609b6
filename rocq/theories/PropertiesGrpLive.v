(** C118: handlers of association group information end.  Statements only; proofs are in GrpLive.v. *)
From Coq Require Import String ZArith List Bool Lia.
From Verif Require Import Py Schema Registry Codec StorageM GrpInfoM SpecGrpInfo SpecGrpLive.
From Verif Require GrpInfoProofs GrpLive.
Import ListNotations.
Open Scope list_scope.
Open Scope string_scope.
Open Scope list_scope.
Open Scope Z_scope.

(** However sending ends, a handler has ended when sending ended as often as it may ask; and it ends once. *)
Theorem C118_ends gs v i others base n ep d es s tr t c rs : aexec (astate0 gs v i others base n ep d) es s tr -> In (OCall t c) tr -> (allowed c <= told_to t es + List.length rs)%nat ->
  exists k s' tr' r, (k <= List.length rs)%nat /\ aexec s (told_all t (firstn k rs)) s' tr' /\ ends_of t (tr ++ tr') = [r].
Proof. exact (GrpLive.ends gs v i others base n ep d es s tr t c rs). Qed.
Print Assumptions C118_ends.
(** It asks at most twice for each group of a report, one question at a time, and never after its end. *)
Theorem C118_few gs v i others base n ep d es s tr t c : aexec (astate0 gs v i others base n ep d) es s tr -> In (OCall t c) tr ->
  (List.length (sends t tr) <= allowed c)%nat /\ (ends_of t tr = [] /\ List.length (sends t tr) = S (told_to t es) \/ exists r, ends_of t tr = [r] /\ List.length (sends t tr) = told_to t es).
Proof. exact (GrpLive.few gs v i others base n ep d es s tr t c). Qed.
Print Assumptions C118_few.

Definition z0 : astate := astate0 [] 1 false [] (chars "/tmp") 5 0 [].
Definition got (bs : list Z) : val := match decode bs with Ok m => m | Err _ => VNone end.
(** groups 1 and 2 *)
Definition z_info : list Z := [89; 4; 130; 1; 0; 0; 1; 0; 0; 0; 2; 0; 32; 1; 0; 0; 0].
Definition z_run : list aevent := [ECall (CInfo (got z_info)); ESent 0 (Ok true); ESent 0 (Ok true)].
(** half of the way: two of four questions were answered, the third is out *)
Example C118_case : decode z_info = Ok (got z_info) /\ allowed (CInfo (got z_info)) = 4%nat /\ exists s tr, aexec z0 z_run s tr /\ In (OCall 0 (CInfo (got z_info))) tr /\
  told_to 0 z_run = 2%nat /\ List.length (sends 0 tr) = 3%nat /\ ends_of 0 tr = [].
Proof.
  split; [vm_compute; reflexivity|]. split; [vm_compute; reflexivity|]. eexists _, _. split; [apply GrpInfoProofs.arun_exec; vm_compute; reflexivity|].
  split; [vm_compute; left; reflexivity|]. split; [reflexivity|]. split; vm_compute; reflexivity.
Qed.
(** the bound is reached; a timeout ends the handler earlier *)
Example C118_full : exists s tr, aexec z0 (z_run ++ [ESent 0 (Ok false); ESent 0 (Ok true)]) s tr /\ List.length (sends 0 tr) = 4%nat /\ ends_of 0 tr = [Ok true].
Proof. eexists _, _. split; [apply GrpInfoProofs.arun_exec; vm_compute; reflexivity|]. split; vm_compute; reflexivity. Qed.
Example C118_timeout : exists s tr, aexec z0 (z_run ++ [ESent 0 (Err ETimeout)]) s tr /\ List.length (sends 0 tr) = 3%nat /\ ends_of 0 tr = [Err ETimeout].
Proof. eexists _, _. split; [apply GrpInfoProofs.arun_exec; vm_compute; reflexivity|]. split; vm_compute; reflexivity. Qed.
