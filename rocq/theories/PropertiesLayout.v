(** C90: the wire layout of each command.  Statements only; proofs are in LayoutProofs.v. *)
From Coq Require Import String ZArith List Bool Lia.
From Verif Require Import Py Schema Registry Codec SpecBits SpecWire SpecDecode SpecLayout.
From Verif Require LayoutProofs.
Import ListNotations.
Open Scope list_scope.
Open Scope string_scope.
Open Scope list_scope.
Open Scope Z_scope.

(** A command constructed from keyword arguments is sent with the layout of the table, reserved bits zero *)
Theorem C90_sent l vs kw b : In l layouts -> lays zeros (l_flds l) vs b -> keywords vs kw ->
  exists s m bs, In s registry /\ s_name s = l_name l /\ new_msg s kw = Ok m /\ compose m = Ok bs /\ bytes_ok bs /\
    bits_of bs = nbits 8 (l_cls l) ++ nbits 8 (l_cmd l) ++ b.
Proof. exact (LayoutProofs.sent l vs kw b). Qed.
Print Assumptions C90_sent.
(** A frame with that layout is received as a message of that class whose attributes are the contents of the fields, whatever the
    reserved bits are *)
Theorem C90_received l vs b p : In l layouts -> plain l = true -> lays anything (l_flds l) vs b -> bytes_ok p -> bits_of p = b ->
  exists s m, In s registry /\ s_name s = l_name l /\ decode (l_cls l :: l_cmd l :: p) = Ok m /\ (exists d, m = VObj (CMsg s) d) /\
    forall x v, In (x, v) vs -> shows v (getattr m x) \/ v = Raw [] /\ getattr m x = VPBytes [].
Proof. exact (LayoutProofs.received l vs b p). Qed.
Print Assumptions C90_received.

(** the table has 89 rows with different names and numbers; it has all 83 flat classes (C02) *)
Definition row_names : list string := map l_name layouts.
Example C90_coverage : length layouts = 89%nat /\ length (nodup string_dec row_names) = 89%nat /\
  length (nodup Z.eq_dec (map (fun l => 256 * l_cls l + l_cmd l) layouts)) = 89%nat /\ length (filter plain layouts) = 83%nat /\
  forallb (fun s => negb (flat_class s) || existsb (String.eqb (s_name s)) row_names) registry = true.
Proof. repeat split; vm_compute; reflexivity. Qed.
Definition ex_keys : list (string * content) := [("seqNo", Num 9); ("grantCSA", Bit false); ("accept", Bit true); ("grantedKeys", Num 135)].
Example C90_sent_example : exists l, In l layouts /\ l_name l = "NetworkManagementInclusion.NodeAddKeysSet" /\
  lays zeros (l_flds l) ex_keys (bits_of [9; 1; 135]) /\ keywords ex_keys [("seqNo", VInt 9); ("accept", VBool true); ("grantCSA", VBool false); ("grantedKeys", VInt 135)].
Proof.
  exists (nth 49 layouts (mkL "" 0 0 [])). split; [vm_compute; do 89 (try (left; reflexivity); right)|]. split; [reflexivity|]. split.
  - apply (L_num _ "seqNo" 8 9); [cbn; lia|]. apply (L_res _ 6 [false; false; false; false; false; false]); [reflexivity|repeat constructor|]. apply L_bit. apply L_bit.
    apply (L_num _ "grantedKeys" 8 135 [] [] []); [cbn; lia|constructor].
  - split.
    + intros x v J. cbn in J. repeat (destruct J as [J|J]; [injection J as <- <-; eexists; split; [reflexivity|constructor]|]). destruct J.
    + intros x w E. cbn in E. repeat (match type of E with (if String.eqb ?a ?b then _ else _) = _ => destruct (String.eqb_spec a b) as [->|]; [eexists; cbn; tauto|] end). discriminate.
Qed.
Example C90_received_example : exists l, In l layouts /\ plain l = true /\ l_name l = "Supervision.Report" /\
  lays anything (l_flds l) [("moreStatusUpdates", Bit true); ("wakeUpRequest", Bit false); ("sessionID", Num 5); ("status", Num 255); ("duration", Num 0)] (bits_of [133; 255; 0]).
Proof.
  exists (nth 69 layouts (mkL "" 0 0 [])). split; [vm_compute; do 89 (try (left; reflexivity); right)|]. split; [reflexivity|]. split; [reflexivity|].
  apply L_bit. apply L_bit. apply (L_num _ "sessionID" 6 5); [cbn; lia|]. apply (L_num _ "status" 8 255); [cbn; lia|]. apply (L_num _ "duration" 8 0 [] [] []); [cbn; lia|constructor].
Qed.
