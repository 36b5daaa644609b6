(** C121: what node objects show.  Statements only; proofs are in AppShow.v. *)
From Coq Require Import String ZArith List Bool.
From Verif Require Import Py Schema Registry Codec Waiter Conn NodeM AppM SpecApp SpecAppShow.
From Verif Require AppProofs AppShow.
Import ListNotations.
Open Scope list_scope.
Open Scope string_scope.
Open Scope list_scope.
Open Scope Z_scope.

(** Start-up and an update of the node list load node 5 (class 96, one end point) at the same time; the update is not told the number of end points. *)
Definition w_events : list aevent :=
  [ECall AStartup; ECall AUpdate; EAnswer 0 (Ok (ANodes [5])); EAnswer 1 (Ok (ANodes [5])); EAnswer 0 (Ok (AInfo [96] 4 16 1 false)); EAnswer 0 (Ok (ACount 1)); EAnswer 0 (Ok (ACap [37] 16 1));
   EAnswer 1 (Ok (AInfo [96] 3 16 1 true)); EAnswer 1 (Err ETimeout)].
Theorem C121_refuted : exists es s tr, aexec app0 es s tr /\ ~ alike s.
Proof.
  destruct (arun app0 w_events) as [[s tr]|] eqn:E; [|vm_compute in E; discriminate]. exists w_events, s, tr. split; [exact (AppProofs.arun_exec _ _ _ _ E)|].
  vm_compute in E. injection E as <- _. intros H. destruct (H 5 1 _ _ eq_refl eq_refl) as [D _]. vm_compute in D. discriminate D.
Qed.
(** The object of a node shows what the adapter said last about this node, whatever calls overlap. *)
Theorem C121_node_partial es s tr n o : aexec app0 es s tr -> object s (n, 0) = Some o ->
  exists x t i cls b g sp l c, last_put tr x t (QInfo n) (AInfo cls b g sp l) (n, 0) i /\ entry s (n, 0) = Some i /\ new_node cls = Ok c /\ o = mkO n 0 c b g sp l None.
Proof. exact (AppShow.node_shows es s tr n o). Qed.
(** So does the object of an end point; basic class and listening are those its node had when the same call loaded it. *)
Theorem C121_end_partial es s tr n e o : aexec app0 es s tr -> e <> 0 -> object s (n, e) = Some o ->
  exists x t i cls g sp c p, last_put tr x t (QCap n e) (ACap cls g sp) (n, e) i /\ entry s (n, e) = Some i /\ 1 <= e /\ new_node cls = Ok c /\ o = mkO n e c 0 g sp false (Some p) /\
    exists x1 x2 cls' b g' sp' l, x = x1 ++ OAnswer t (QInfo n) (AInfo cls' b g' sp' l) :: OPut t (n, 0) p :: x2 /\ shown o_basic s o = Some b /\ shown o_listening s o = Some l.
Proof. exact (AppShow.end_shows es s tr n e o). Qed.
(** If a node was loaded once, its end points show what it shows. *)
Theorem C121_partial es s tr n e o r : aexec app0 es s tr -> (forall t i t' i', In (OPut t (n, 0) i) tr -> In (OPut t' (n, 0) i') tr -> i = i') -> object s (n, e) = Some o -> object s (n, 0) = Some r ->
  shown o_listening s o = shown o_listening s r /\ shown o_basic s o = shown o_basic s r.
Proof. exact (AppShow.alike_one es s tr n e o r). Qed.
Print Assumptions C121_refuted.
Print Assumptions C121_node_partial.
Print Assumptions C121_end_partial.
Print Assumptions C121_partial.

(** a node with an end point, loaded once *)
Definition w_once : list aevent := [ECall AStartup; EAnswer 0 (Ok (ANodes [5])); EAnswer 0 (Ok (AInfo [96] 4 16 1 true)); EAnswer 0 (Ok (ACount 1)); EAnswer 0 (Ok (ACap [37] 17 2))].
Example C121_case : exists s tr o r, aexec app0 w_once s tr /\ object s (5, 1) = Some o /\ object s (5, 0) = Some r /\ o_generic o = 17 /\ shown o_basic s o = Some 4 /\ shown o_listening s o = Some true /\
  (forall t i t' i', In (OPut t (5, 0) i) tr -> In (OPut t' (5, 0) i') tr -> i = i').
Proof.
  destruct (arun app0 w_once) as [[s tr]|] eqn:E; [|vm_compute in E; discriminate]. pose proof (AppProofs.arun_exec _ _ _ _ E) as X. vm_compute in E. injection E as <- <-. do 4 eexists. split; [exact X|].
  split; [reflexivity|]. split; [reflexivity|]. split; [reflexivity|]. split; [reflexivity|]. split; [reflexivity|].
  intros t i t' i' J J'. cbn in J, J'. repeat (destruct J as [J|J]; [try discriminate J|]); try (destruct J; fail). repeat (destruct J' as [J'|J']; [try discriminate J'|]); try (destruct J'; fail). congruence.
Qed.
(** a node that was loaded twice shows the second answer *)
Example C121_twice : exists s tr o, aexec app0 (w_once ++ [ECall (ALoad 5); EAnswer 1 (Ok (AInfo [37] 3 18 2 false))]) s tr /\ object s (5, 0) = Some o /\ o_generic o = 18 /\ o_listening o = false.
Proof. do 3 eexists. split; [apply AppProofs.arun_exec; vm_compute; reflexivity|]. split; [reflexivity|]. split; reflexivity. Qed.
