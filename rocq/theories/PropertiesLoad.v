(** Loading a single node (C102). *)
From Coq Require Import String ZArith List Bool.
From Verif Require Import Py Schema Registry Codec Waiter Conn NodeM AppM SpecApp AppProofs SpecLoad AppLoad.
Import ListNotations.
Open Scope list_scope.
Open Scope string_scope.
Open Scope list_scope.
Open Scope Z_scope.

(** ** C102 *)
Theorem C102_load s1 n s2 os es s b t : astep s1 (ECall (ALoad n)) = Some (s2, os) -> aexec s2 es s b -> t = length (a_tasks s1) ->
  exists tr, deeds t (os ++ b) = OCalled t (ALoad n) :: tr /\ if n =? a_me s1 then tr = [ODone t (Ok (RNodes []))] else loads_as n (results t es) (a_objs s) tr.
Proof. exact (AppLoad.load_alone s1 n s2 os es s b t). Qed.
Print Assumptions C102_load.
Theorem C102_known s1 n s2 os es s b t : astep s1 (ECall (ALoad n)) = Some (s2, os) -> aexec s2 es s b -> t = length (a_tasks s1) ->
  (forall u e i, In (OPut u (n, e) i) b -> u = t) -> (forall u e, In (ODel u (n, e)) b -> u = t) ->
  (forall k i, In (k, i) (stored (deeds t (os ++ b))) -> entry s k = Some i) /\
  (forall e, ~ In (n, e) (map fst (stored (deeds t (os ++ b)))) -> entry s (n, e) = entry s1 (n, e)).
Proof. exact (AppLoad.load_known s1 n s2 os es s b t). Qed.
Print Assumptions C102_known.
(** what the writes and removals mean *)
Theorem C102_table s0 es s tr k : aexec s0 es s tr -> entry s k = play k tr (entry s0 k).
Proof. intros X. exact (AppLoad.table_trace s0 es s tr X k). Qed.
Print Assumptions C102_table.

(** node 5 (Multi Channel, two end points) is loaded while an update loads node 6 *)
Definition x_me : app := mkA 1 [] [] [].
Definition x_info (cls : list Z) : res answer := Ok (AInfo cls 4 16 1 true).
Definition x_load : app := match astep x_me (ECall (ALoad 5)) with Some (s, _) => s | None => x_me end.
Definition x_mixed : list aevent :=
  [ECall AUpdate; EAnswer 1 (Ok (ANodes [1; 6])); EAnswer 0 (x_info [94; 96]); EAnswer 1 (x_info [94]); EAnswer 0 (Ok (ACount 2)); EAnswer 0 (Ok (ACap [37] 16 1)); EAnswer 1 (Ok (ATold [])); EAnswer 0 (Ok (ACap [38; 239; 32] 17 2)); EAnswer 1 (Ok (ATold []))].
Definition run_of (s : app) (es : list aevent) : app * list aobs := match arun s es with Some x => x | None => (s, []) end.
Example C102_case : astep x_me (ECall (ALoad 5)) = Some (x_load, [OCalled 0 (ALoad 5); OQuery 0 (QInfo 5)]) /\
  (exists s b, aexec x_load x_mixed s b /\
    asked (deeds 0 b) = [QCount 5; QCap 5 1; QCap 5 2] /\ stored (deeds 0 b) = [((5, 0), 0%nat); ((5, 1), 2%nat); ((5, 2), 3%nat)] /\ ends (deeds 0 b) = [Ok (RNodes [0; 2; 3]%nat)] /\ In (ODone 1 (Ok RNone)) b /\
    entry s (5, 2) = Some 3%nat /\ entry s (6, 0) = Some 1%nat /\
    (forall u e i, In (OPut u (5, e) i) b -> u = 0%nat) /\ (forall u e, In (ODel u (5, e)) b -> u = 0%nat)) /\
  outcome (plan_load 5 0 (results 0 x_mixed)) = Some (Ok tt) /\
  (* a class list that is cut short ends it *)
  outcome (plan_load 5 0 [x_info [94; 96]; Ok (ACount 2); Ok (ACap [241] 16 1)]) = Some (Err EIndex) /\
  (* the controller itself is not loaded *)
  (exists s, astep x_me (ECall (ALoad 1)) = Some (s, [OCalled 0 (ALoad 1); ODone 0 (Ok (RNodes []))])).
Proof.
  split; [vm_compute; reflexivity|]. split; [|split; [vm_compute; reflexivity|split; [vm_compute; reflexivity|eexists; vm_compute; reflexivity]]].
  exists (fst (run_of x_load x_mixed)), (snd (run_of x_load x_mixed)). split; [apply AppProofs.arun_exec; vm_compute; reflexivity|].
  split; [vm_compute; reflexivity|]. split; [vm_compute; reflexivity|]. split; [vm_compute; reflexivity|]. split; [vm_compute; tauto|]. split; [vm_compute; reflexivity|]. split; [vm_compute; reflexivity|].
  split; [intros u e i J|intros u e J]; vm_compute in J; intuition congruence.
Qed.
