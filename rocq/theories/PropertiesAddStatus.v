(** C130: the report about an added node. *)
From Coq Require Import String ZArith List Bool.
From Verif Require Import Py BitStream Schema Registry Codec SpecAddStatus AddStatus.
Import ListNotations.
Open Scope list_scope.
Open Scope string_scope.
Open Scope list_scope.
Open Scope Z_scope.

Theorem C130_decoded : forall a, added_ok a ->
  exists d, decode (added_bytes a) = Ok (VObj (CMsg m_NetworkManagementInclusion_NodeAddStatus) d) /\
    aget "seqNo" d = Some (VI false 1 (ad_seq a)) /\ aget "status" d = Some (VI false 1 (ad_status a)) /\
    aget "newNodeID" d = Some (VI false 1 (ad_node a)) /\
    aget "listening" d = Some (VF (if ad_listening a then 1 else 0)) /\ aget "optFunc" d = Some (VF (if ad_optional a then 1 else 0)) /\
    aget "basicDeviceClass" d = Some (VI false 1 (ad_basic a)) /\ aget "genericDeviceClass" d = Some (VI false 1 (ad_generic a)) /\
    aget "specificDeviceClass" d = Some (VI false 1 (ad_specific a)) /\
    match ad_classes a with
    | [] => aget "commandClass" d = None
    | _ => exists l, aget "commandClass" d = Some (VList (map VInt l)) /\ first_of (ad_length a - 7) (ad_classes a) l
    end.
Proof. exact added_decodes. Qed.
Print Assumptions C130_decoded.

(** [first_of] names one list only *)
Theorem C130_one : forall n l k k', first_of n l k -> first_of n l k' -> k = k'.
Proof. exact first_one. Qed.
Print Assumptions C130_one.

(** two classes and a byte that is not one; fewer classes than announced; a length that is too small *)
Example C130_case : exists d, decode (added_bytes (mkAdded 12 6 0 78 9 true 83 true 28 4 16 1 [94; 37; 0])) = Ok (VObj (CMsg m_NetworkManagementInclusion_NodeAddStatus) d) /\
  aget "newNodeID" d = Some (VI false 1 78) /\ aget "listening" d = Some (VF 1) /\ aget "commandClass" d = Some (VList [VInt 94; VInt 37]).
Proof. eexists. split; [vm_compute; reflexivity|]. vm_compute. repeat split. Qed.
Example C130_case_fewer : exists d, decode (added_bytes (mkAdded 12 6 0 78 21 false 0 false 0 4 16 1 [94; 37])) = Ok (VObj (CMsg m_NetworkManagementInclusion_NodeAddStatus) d) /\
  aget "commandClass" d = Some (VList [VInt 94; VInt 37]).
Proof. eexists. split; [vm_compute; reflexivity|]. vm_compute. repeat split. Qed.
Example C130_case_short : exists d, decode (added_bytes (mkAdded 12 7 0 0 1 false 0 false 0 0 0 0 [0; 0])) = Ok (VObj (CMsg m_NetworkManagementInclusion_NodeAddStatus) d) /\
  aget "commandClass" d = Some (VList []).
Proof. eexists. split; [vm_compute; reflexivity|]. vm_compute. repeat split. Qed.
Example C130_case_meets : added_ok (mkAdded 12 6 0 78 9 true 83 true 28 4 16 1 [94; 37; 0]).
Proof. repeat split; try (intros X; discriminate X). repeat (apply Forall_cons; [split; [intros X; discriminate X|reflexivity]|]). apply Forall_nil. Qed.
