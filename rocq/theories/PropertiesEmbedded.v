(** C131: commands inside supervision requests.  C132: the gateway's notices about mailbox queues of failing nodes. *)
From Coq Require Import String ZArith List Bool.
From Verif Require Import Py BitStream Schema Registry Codec Embedded.
Import ListNotations.
Open Scope list_scope.
Open Scope string_scope.
Open Scope list_scope.
Open Scope Z_scope.

(** A supervision request (108 1, one byte of flag and session, the length, the command) is decoded to the flag, the
    session and exactly what decoding the command alone gives; what follows the command does not matter.  If the
    command alone cannot be decoded, the request fails in the same way. *)
Theorem C131_same : forall (updates : bool) reserved session cmd tl,
  0 <= reserved < 2 -> 0 <= session < 64 ->
  Forall (fun b => 0 <= b < 256) cmd -> zlen cmd < 256 -> Forall (fun b => 0 <= b < 256) tl ->
  match decode cmd with
  | Err e => decode (108 :: 1 :: ((if updates then 128 else 0) + 64 * reserved + session) :: zlen cmd :: cmd ++ tl) = Err e
  | Ok c => exists d, decode (108 :: 1 :: ((if updates then 128 else 0) + 64 * reserved + session) :: zlen cmd :: cmd ++ tl) = Ok (VObj (CMsg m_Supervision_Get) d) /\
      aget "statusUpdates" d = Some (VF (if updates then 1 else 0)) /\ aget "sessionID" d = Some (VB 6 session) /\ aget "command" d = Some c
  end.
Proof. exact get_same. Qed.
Print Assumptions C131_same.

(** A request with fewer bytes than announced is refused: a cut command is never taken for a command. *)
Theorem C131_cut : forall x n rest, 0 <= x < 256 -> 0 <= n < 256 -> Forall (fun b => 0 <= b < 256) rest -> zlen rest < n ->
  decode (108 :: 1 :: x :: n :: rest) = Err EEOF.
Proof. exact get_cut. Qed.
Print Assumptions C131_cut.

(** a supervised request to set a switch, and one whose command is cut *)
Example C131_case : exists d c, decode (108 :: 1 :: 128 + 64 * 1 + 9 :: 3 :: [37; 1; 255] ++ [7]) = Ok (VObj (CMsg m_Supervision_Get) d) /\
  decode [37; 1; 255] = Ok c /\ aget "sessionID" d = Some (VB 6 9) /\ aget "command" d = Some c.
Proof. eexists _, _. split; [vm_compute; reflexivity|]. split; [vm_compute; reflexivity|]. vm_compute. repeat split. Qed.
Example C131_case_err : decode [112; 6; 1; 4; 0] = Err EEOF /\ decode (108 :: 1 :: 9 :: 5 :: [112; 6; 1; 4; 0]) = Err EEOF.
Proof. vm_compute. repeat split. Qed.

Example C131_case_cut : decode [108; 1; 9; 3; 37; 1] = Err EEOF.
Proof. vm_compute. reflexivity. Qed.

(** A notice about the queue of a failing node gives the queue's handle, both as the specification has it (one byte)
    and as the gateway sends it (the last of sixteen bytes). *)
Theorem C132_short : forall h, 0 <= h < 256 ->
  exists d, decode [105; 6; h] = Ok (VObj (CMsg m_Mailbox_NodeFailing) d) /\ aget "queueHandle" d = Some (VI false 1 h).
Proof. exact nf_short. Qed.
Print Assumptions C132_short.
Theorem C132_long : forall pad h, Forall (fun b => 0 <= b < 256) pad -> length pad = 15%nat -> 0 <= h < 256 ->
  exists d, decode (105 :: 6 :: pad ++ [h]) = Ok (VObj (CMsg m_Mailbox_NodeFailing) d) /\ aget "queueHandle" d = Some (VI false 1 h).
Proof. exact nf_long. Qed.
Print Assumptions C132_long.
Example C132_case : exists d, decode (105 :: 6 :: [253; 0; 187; 187; 0; 0; 0; 0; 0; 0; 0; 0; 0; 0; 0] ++ [11]) = Ok (VObj (CMsg m_Mailbox_NodeFailing) d) /\
  aget "queueHandle" d = Some (VI false 1 11).
Proof. eexists. split; [vm_compute; reflexivity|]. vm_compute. repeat split. Qed.
