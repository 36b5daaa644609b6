(** C129: entries of the provisioning list. *)
From Coq Require Import String ZArith List Bool.
From Verif Require Import Py BitStream Schema Registry Codec SpecProvision Provision.
Import ListNotations.
Open Scope list_scope.
Open Scope string_scope.
Open Scope list_scope.
Open Scope Z_scope.

(** A well-formed report whose metadata has a type the library has no name for is not decoded at all, whether or
    not the metadatum is marked critical, so that its key is not available either. *)
Theorem C129_refuted : forall seq count reserved key es,
  is_byte seq -> is_byte count -> 0 <= reserved < 8 -> key = [] \/ length key = 16%nat -> Forall is_byte key ->
  Forall md_wellformed es -> Exists (fun e => ~ In (md_type e) md_known) es ->
  decode (entry_report seq count reserved key es) = Err EValue.
Proof. intros s c r key es H1 H2 H3 H4 H5 H6. exact (entry_lost s c r key es (conj H1 (conj H2 (conj H3 (conj H4 (conj H5 H6)))))). Qed.
Print Assumptions C129_refuted.

(** Otherwise the decoded report has the sequence number, the count, the key, and for every type the data of the last
    metadatum of that type. *)
Theorem C129_partial : forall seq count reserved key es,
  is_byte seq -> is_byte count -> 0 <= reserved < 8 -> key = [] \/ length key = 16%nat -> Forall is_byte key ->
  Forall md_wellformed es -> Forall (fun e => In (md_type e) md_known) es ->
  exists d, decode (entry_report seq count reserved key es) = Ok (VObj (CMsg m_NodeProvisioning_ListIterationReport) d) /\
    aget "seqNo" d = Some (VI false 1 seq) /\ aget "remainingCount" d = Some (VI false 1 count) /\
    aget "dsk" d = match key ++ flat_map md_bytes es with [] => None | _ => Some (VDsk key) end /\
    match es with
    | [] => aget "metaDataExtension" d = None
    | _ => exists l, aget "metaDataExtension" d = Some (VMeta l) /\
             forall k, dget Z.eqb k l = match last_data k es with Some bs => Some (VPBytes bs) | None => None end
    end.
Proof. intros s c r key es H1 H2 H3 H4 H5 H6. exact (entry_decodes s c r key es (conj H1 (conj H2 (conj H3 (conj H4 (conj H5 H6)))))). Qed.
Print Assumptions C129_partial.

(** Reports that announce a key of any length other than 0 and 16 bytes, or whose key is cut, are refused: no part of a
    key is ever taken for a key. *)
Theorem C129_key_refused : forall seq count reserved n tl,
  is_byte seq -> is_byte count -> 0 <= reserved < 8 -> 0 <= n < 32 -> n <> 0 -> n <> 16 -> Forall is_byte tl -> tl <> [] ->
  decode (120 :: 4 :: seq :: count :: (32 * reserved + n) :: tl) = Err EValue.
Proof. exact entry_key_refused. Qed.
Print Assumptions C129_key_refused.
Theorem C129_key_cut : forall seq count reserved tl,
  is_byte seq -> is_byte count -> 0 <= reserved < 8 -> Forall is_byte tl -> tl <> [] -> zlen tl < 16 ->
  decode (120 :: 4 :: seq :: count :: (32 * reserved + 16) :: tl) = Err EEOF.
Proof. exact entry_key_cut. Qed.
Print Assumptions C129_key_cut.

(** Nor are reports decoded that end inside a metadatum: after its first byte, or before the announced end of its data. *)
Theorem C129_cut : forall seq count reserved key es b x,
  is_byte seq -> is_byte count -> 0 <= reserved < 8 -> key = [] \/ length key = 16%nat -> Forall is_byte key ->
  Forall md_wellformed es -> is_byte b -> Forall is_byte x -> (forall n, hd_error x = Some n -> zlen (tl x) < n) ->
  decode (entry_report seq count reserved key es ++ b :: x) = Err EEOF.
Proof. intros s c r key es b x H1 H2 H3 H4 H5 H6. exact (entry_cut s c r key es b x (conj H1 (conj H2 (conj H3 (conj H4 (conj H5 H6)))))). Qed.
Print Assumptions C129_cut.

(** an entry with a key, a name given twice and a network status, and one with a metadatum of type 4 *)
Definition some_key : list Z := [1; 2; 3; 4; 5; 6; 7; 8; 9; 10; 11; 12; 13; 14; 15; 16].
Definition some_meta : list metadatum := [mkMeta 50 false [65; 66]; mkMeta 55 true [1; 9]; mkMeta 50 true [67]].
Example C129_case : exists d l,
  Forall md_wellformed some_meta /\ Forall (fun e => In (md_type e) md_known) some_meta /\
  decode (entry_report 7 2 5 some_key some_meta) = Ok (VObj (CMsg m_NodeProvisioning_ListIterationReport) d) /\
  aget "dsk" d = Some (VDsk some_key) /\ aget "metaDataExtension" d = Some (VMeta l) /\
  dget Z.eqb 50 l = Some (VPBytes [67]) /\ dget Z.eqb 55 l = Some (VPBytes [1; 9]) /\ dget Z.eqb 51 l = None.
Proof.
  eexists _, _. split; [|split; [|split; [vm_compute; reflexivity|vm_compute; repeat split]]].
  - repeat (apply Forall_cons; [repeat split; try (intros X; discriminate X); repeat (apply Forall_cons; [split; [intros X; discriminate X|reflexivity]|]); apply Forall_nil|]). apply Forall_nil.
  - repeat (apply Forall_cons; [vm_compute; tauto|]). apply Forall_nil.
Qed.
Example C129_case_unknown :
  decode (entry_report 7 2 0 some_key [mkMeta 50 false [65; 66]; mkMeta 4 false [9]]) = Err EValue /\
  md_wellformed (mkMeta 4 false [9]) /\ ~ In 4 md_known.
Proof.
  split; [vm_compute; reflexivity|]. split.
  - repeat split; try (intros X; discriminate X). repeat (apply Forall_cons; [split; [intros X; discriminate X|reflexivity]|]). apply Forall_nil.
  - vm_compute. intuition discriminate.
Qed.
Example C129_case_key : decode [120; 4; 7; 2; 5; 1; 2; 3; 4; 5] = Err EValue /\ decode [120; 4; 7; 2; 48; 1; 2; 3] = Err EEOF.
Proof. vm_compute. repeat split. Qed.
Example C129_case_cut : decode (entry_report 7 2 0 some_key some_meta ++ 100 :: [3; 65; 66]) = Err EEOF /\ decode (entry_report 7 2 0 [] [] ++ 100 :: []) = Err EEOF.
Proof. vm_compute. repeat split. Qed.
