(** C101: what interview() of a class returns and when the class counts as interviewed.  Statements only; proofs are in InterviewResult.v. *)
From Coq Require Import String ZArith List Bool Lia.
From Verif Require Import Py Schema Registry Codec Waiter Conn NodeReq ClassProofs InterviewM SpecInterview PropertiesInterview.
From Verif Require InterviewProofs InterviewData InterviewVisit InterviewResult.
Import ListNotations.
Open Scope list_scope.
Open Scope string_scope.
Open Scope list_scope.
Open Scope Z_scope.

(** the version is not reported: interview() returns None as it does when it succeeds, but the class is not interviewed *)
Definition x_unknown : list ievent := [ICall (CClass 37)] ++ silence 0.
Theorem C101_unknown_refuted : exists s tr, iexec (istate0 [37] fresh_node) x_unknown s tr /\ from_wire tr /\ In (3000, ODone 0 (Ok (VRet None))) tr /\ k_interviewed (i_cls s 37) = false.
Proof. start X. split; [wire X|]. split; [vm_compute; tauto|vm_compute; reflexivity]. Qed.
Print Assumptions C101_unknown_refuted.
(** two interviews overlap: the first gets the report, the request of the second is not acknowledged; it returns False but the class counts as interviewed *)
Definition x_overlap : list ievent := [ICall (CClass 134)] ++ reply 0 [134; 20; 134; 3] ++ [ICall (CClass 134)] ++ reply 1 [134; 18; 3; 4; 5; 6; 7] ++ [INet (NEvSent 2 (Ok false))].
Theorem C101_overlap_refuted : exists s tr, iexec (istate0 [134] fresh_node) x_overlap s tr /\ from_wire tr /\ In (0, ODone 1 (Ok (VRet (Some false)))) tr /\ k_interviewed (i_cls s 134) = true.
Proof. start X. split; [wire X|]. split; [vm_compute; tauto|vm_compute; reflexivity]. Qed.
Print Assumptions C101_overlap_refuted.

(** interview() returns what the own interview of the class returned, False if it timed out, and None if no version was learnt; it raises what the own interview
    or the version question raised, or TypeError after a cut report, but no TimeoutError.  Missing: telling a class whose version was not learnt from a success. *)
Theorem C101_partial : forall ids cls es s tr n n' t id r, iexec (istate0 ids cls) es s tr -> from_wire tr -> sound cls -> In (n, OCall t (CClass id)) tr -> In (n', ODone t r) tr ->
  match r with
  | Ok (VRet b) => (b = None /\ no_version t id tr /\ forall n o, In (n, o) tr -> ~ starts t id o) \/ ended t id (Ok b) es tr \/ (b = Some false /\ ended t id (Err ETimeout) es tr)
  | Ok _ => False
  | Err e => e <> ETimeout /\ (ended t id (Err e) es tr \/ version_said t id (RExc e) tr \/ (e = EType /\ exists m, version_said t id (RMsg m) tr /\ incomplete m))
  end.
Proof. exact InterviewResult.result_exec. Qed.
Print Assumptions C101_partial.
Example C101_partial_ex : exists s tr, iexec (istate0 [134] fresh_node) x_overlap s tr /\ from_wire tr /\ sound fresh_node /\ In (0, OCall 0 (CClass 134)) tr /\ In (0, ODone 0 (Ok (VRet None))) tr /\ In (0, OCall 1 (CClass 134)) tr.
Proof. start X. split; [wire X|]. split; [exact sound_fresh|]. vm_compute. tauto. Qed.

(** when interview() returns, the class counts as interviewed unless it returned False or raised or no version was learnt; in these cases the flag is left alone *)
Theorem C101_marked_partial : forall ids cls es s tr e s' os n t id r, iexec (istate0 ids cls) es s tr -> istep s e = Some (s', os) -> from_wire (tr ++ istamp (n_now (i_net s)) os) -> sound cls ->
  In (n, OCall t (CClass id)) (tr ++ istamp (n_now (i_net s)) os) -> In (ODone t r) os ->
  match r with
  | Ok (VRet (Some false)) | Err _ => k_interviewed (i_cls s' id) = k_interviewed (i_cls s id)
  | Ok (VRet _) => k_interviewed (i_cls s' id) = true \/ (k_interviewed (i_cls s' id) = k_interviewed (i_cls s id) /\ no_version t id (tr ++ istamp (n_now (i_net s)) os))
  | _ => False
  end.
Proof. exact InterviewResult.fact_exec. Qed.
Print Assumptions C101_marked_partial.
(** the last step of the first interview of [x_overlap] *)
Example C101_marked_partial_ex : exists s tr s' os, iexec (istate0 [134] fresh_node) ([ICall (CClass 134)] ++ reply 0 [134; 20; 134; 3] ++ removelast (reply 1 [134; 18; 3; 4; 5; 6; 7])) s tr /\
  istep s (INet (NEvResume 1)) = Some (s', os) /\ from_wire (tr ++ istamp (n_now (i_net s)) os) /\ In (ODone 0 (Ok (VRet None))) os /\ k_interviewed (i_cls s 134) = false /\ k_interviewed (i_cls s' 134) = true.
Proof.
  eexists _, _, _, _. match goal with |- ?P /\ _ => assert (X : P) by (apply InterviewVisit.irun_exec; vm_compute; reflexivity) end. split; [exact X|].
  match goal with |- ?P /\ _ => assert (S : P) by (vm_compute; reflexivity) end. split; [exact S|]. split; [|split; [vm_compute; tauto|split; vm_compute; reflexivity]].
  eapply wire_run; [econstructor; [exact X|exact S]|]. intros m J. messages J; match goal with |- exists bs, _ /\ decode bs = Ok (got ?l) => exists l; split; [repeat constructor; lia|vm_compute; reflexivity] end.
Qed.

(** the flag: it is taken away only when the own interview of the class starts, and always then; it is set only when the own interview is over and has not returned
    False, and always then unless another one starts at once; a class without an own interview is only ever set, with a signal *)
Theorem C101_flag_partial : forall ids cls es s tr e s' os, iexec (istate0 ids cls) es s tr -> istep s e = Some (s', os) -> from_wire (tr ++ istamp (n_now (i_net s)) os) -> sound cls -> forall id,
  (k_interviewed (i_cls s id) = true -> k_interviewed (i_cls s' id) = false -> exists t o, In o os /\ starts t id o) /\
  (k_interviewed (i_cls s id) = false -> k_interviewed (i_cls s' id) = true -> match own_of id with Nothing => In (OUpdated id) os | _ => exists t r, r <> Some false /\ over t id (Ok r) e tr os end) /\
  (forall t o, In o os -> starts t id o -> k_interviewed (i_cls s' id) = false) /\
  (forall t r, over t id (Ok r) e tr os -> r <> Some false -> k_interviewed (i_cls s' id) = true \/ exists o, In o os /\ starts t id o).
Proof. exact InterviewResult.story_exec. Qed.
Print Assumptions C101_flag_partial.
(** an interview left to the environment: it starts, ends with False, starts again and ends without a result *)
Definition x_own : list ievent := [ICall (CClass 133)] ++ reply 0 [134; 20; 133; 2] ++ [IOwn 0 (Ok (Some false)); ICall (CClass 133)].
Example C101_flag_partial_ex : exists s tr s' os, iexec (istate0 [133] fresh_node) x_own s tr /\ istep s (IOwn 1 (Ok None)) = Some (s', os) /\ from_wire (tr ++ istamp (n_now (i_net s)) os) /\
  over 1 133 (Ok None) (IOwn 1 (Ok None)) tr os /\ k_interviewed (i_cls s 133) = false /\ k_interviewed (i_cls s' 133) = true /\ In (0, ODone 0 (Ok (VRet (Some false)))) tr.
Proof.
  eexists _, _, _, _. match goal with |- ?P /\ _ => assert (X : P) by (apply InterviewVisit.irun_exec; vm_compute; reflexivity) end. split; [exact X|].
  match goal with |- ?P /\ _ => assert (S : P) by (vm_compute; reflexivity) end. split; [exact S|]. split; [|split; [vm_compute; auto|split; [vm_compute; reflexivity|split; [vm_compute; reflexivity|vm_compute; tauto]]]].
  eapply wire_run; [econstructor; [exact X|exact S]|]. intros m J. messages J; match goal with |- exists bs, _ /\ decode bs = Ok (got ?l) => exists l; split; [repeat constructor; lia|vm_compute; reflexivity] end.
Qed.

(** if no other interview of the class was ever started, after False it does not count as interviewed *)
Theorem C101_alone_partial : forall ids cls es s tr n n' t id, iexec (istate0 ids cls) es s tr -> from_wire tr -> sound cls -> In (n, OCall t (CClass id)) tr ->
  (forall n0 t', In (n0, OVisit t' id) tr -> t' = t) -> In (n', ODone t (Ok (VRet (Some false)))) tr -> k_interviewed (i_cls s id) = false.
Proof. exact InterviewResult.alone_false. Qed.
Print Assumptions C101_alone_partial.
(** restored as interviewed; the repeated interview is not answered *)
Definition restored (id : Z) : kcls := mkK 3 true [].
Lemma sound_restored : sound restored.
Proof. intros id w f sz _. left. reflexivity. Qed.
Example C101_alone_partial_ex : exists s tr, iexec (istate0 [134] restored) ([ICall (CClass 134)] ++ silence 0) s tr /\ from_wire tr /\ sound restored /\ In (0, OCall 0 (CClass 134)) tr /\
  (forall n0 t', In (n0, OVisit t' 134) tr -> t' = 0%nat) /\ In (3000, ODone 0 (Ok (VRet (Some false)))) tr.
Proof.
  start X. split; [wire X|]. split; [exact sound_restored|]. split; [vm_compute; tauto|]. split; [|vm_compute; tauto].
  intros n0 t' J. vm_compute in J. repeat (destruct J as [J|J]; [first [discriminate J|injection J as _ <-; reflexivity]|]). destruct J.
Qed.
