(** C09-C18, C21, C22: variable size fields, reports and acknowledgement packets.
    Statements only; the proofs are in the lemmas named. *)
From Coq Require Import String ZArith List Bool Lia.
From Verif Require Import Py BitStream Schema Registry Codec Text SpecBits SpecWire SpecDecode SpecRound.
From Verif Require HeaderProofs FieldProofs ValueProofs ReportProofs.
From Verif Require Import SpecFields.
Import ListNotations.
Open Scope list_scope.
Open Scope Z_scope.
Open Scope string_scope.
Open Scope list_scope.
Open Scope Z_scope.
Local Ltac run := match goal with |- exists x, ?e = Ok x /\ _ =>
  let v := eval vm_compute in e in match v with Ok ?m => exists m end; split; [vm_compute; reflexivity|] end.
Local Ltac in_reg := unfold registry; repeat (first [left; reflexivity | right]).
Local Ltac small := repeat (constructor; [lia|]); constructor.

(** * C09 *)
Theorem C09_header_extension f0 f1 sq se de os cmd :
  bytes_ok [f0; f1; sq; se; de] -> 128 <= f1 -> Forall option_ok os -> zlen (flat_map option_bytes os) < 255 -> bytes_ok cmd ->
  let ext := (1 + zlen (flat_map option_bytes os)) :: flat_map option_bytes os in
  match (match cmd with [] => Ok VNone | _ => decode cmd end) with
  | Err e => decode (35 :: 2 :: [f0; f1; sq; se; de] ++ ext ++ cmd) = Err e
  | Ok m => exists d l, decode (35 :: 2 :: [f0; f1; sq; se; de] ++ ext ++ cmd) = Ok (VObj (CMsg m_Zip_ZipPacket) d) /\
      header_reads (s_attrs m_Zip_ZipPacket) HeaderProofs.zip_header [f0; f1; sq; se; de] d /\
      aget "headerExtension" d = Some (VHdr l) /\ extension_reads os l /\
      aget "command" d = match cmd with [] => None | _ => Some m end
  end.
Proof. exact (HeaderProofs.zip_extension f0 f1 sq se de os cmd). Qed.
Print Assumptions C09_header_extension.
Definition ex_options : list zoption :=
  [ODelay false 5; OReport false [ERouteChanged 1; ETransmissionTime 300; EWorkingRoute 2 3 0 0 3]; OEncap true 2 0 true; ODelay false (-1)].
Example C09_example : Forall option_ok ex_options /\ zlen (flat_map option_bytes ex_options) < 255 /\
  flat_map option_bytes ex_options = [1; 3; 0; 0; 5; 3; 14; 0; 1; 1; 1; 2; 1; 44; 2; 5; 2; 3; 0; 0; 3; 132; 2; 2; 1; 1; 3; 255; 255; 255] /\
  latest option_type 1 ex_options = Some (ODelay false (-1)) /\
  exists m, decode [32; 1; 200] = Ok m /\ True.
Proof. split; [|split; [reflexivity|]; split; [reflexivity|]; split; [reflexivity|]; run; exact I].
  unfold ex_options. repeat (constructor; [cbn; unfold byte; repeat (first [lia | split | constructor])|]). constructor. Qed.

(** * C10 *)
(** The property fails for every option type this library does not know: nothing of the packet is delivered. *)
Theorem C10_unknown_option_lost f0 f1 sq se de ty data cmd : bytes_ok [f0; f1; sq; se; de] -> 128 <= f1 ->
  0 <= ty < 128 -> ty <> 1 -> ty <> 3 -> ty <> 4 -> bytes_ok data -> zlen data < 252 -> bytes_ok cmd ->
  decode (35 :: 2 :: [f0; f1; sq; se; de] ++ ((3 + zlen data) :: ty :: zlen data :: data) ++ cmd) = Err EAttribute.
Proof. exact (HeaderProofs.unknown_option_fails f0 f1 sq se de ty data cmd). Qed.
Print Assumptions C10_unknown_option_lost.
Theorem C10_unknown_option_refuted :
  ~ (forall ty data cmd m, 0 <= ty < 128 -> bytes_ok data -> zlen data < 252 -> decode cmd = Ok m ->
       exists d, decode ([35; 2; 0; 192; 1; 0; 0] ++ ((3 + zlen data) :: ty :: zlen data :: data) ++ cmd) = Ok (VObj (CMsg m_Zip_ZipPacket) d) /\
         aget "command" d = Some m).
Proof.
  intros H. destruct (H 2 [7] [32; 1; 200] (VObj (CMsg m_Basic_Set) [("value", VI false 1 200)])) as (d & E & _);
    [lia|small|reflexivity|vm_compute; reflexivity|].
  change ([35; 2; 0; 192; 1; 0; 0] ++ ((3 + zlen [7]) :: 2 :: zlen [7] :: [7]) ++ [32; 1; 200]) with
    (35 :: 2 :: [0; 192; 1; 0; 0] ++ ((3 + zlen [7]) :: 2 :: zlen [7] :: [7]) ++ [32; 1; 200]) in E.
  rewrite C10_unknown_option_lost in E; [discriminate|small|lia|lia|lia|lia|lia|small|reflexivity|small].
Qed.
Print Assumptions C10_unknown_option_refuted.
(** It holds for options of the known types, whatever they carry; missing: the other types. *)
Theorem C10_known_options_partial f0 f1 sq se de os cmd m :
  bytes_ok [f0; f1; sq; se; de] -> 128 <= f1 -> Forall option_ok os -> zlen (flat_map option_bytes os) < 255 -> bytes_ok cmd ->
  cmd <> [] -> decode cmd = Ok m ->
  exists d, decode (35 :: 2 :: [f0; f1; sq; se; de] ++ ((1 + zlen (flat_map option_bytes os)) :: flat_map option_bytes os) ++ cmd) = Ok (VObj (CMsg m_Zip_ZipPacket) d) /\
    aget "command" d = Some m.
Proof.
  intros B H F L BC NE E. pose proof (HeaderProofs.zip_extension f0 f1 sq se de os cmd B H F L BC) as X. cbv zeta in X.
  destruct cmd as [|x cmd]; [contradiction|]. rewrite E in X. destruct X as (d & l & E1 & _ & _ & _ & G). eauto.
Qed.
Print Assumptions C10_known_options_partial.

(** * C11 *)
Definition node_list_report (s : schema) (n : string) (k : nat) : Prop :=
  s = m_NetworkManagementProxy_NodeListReport /\ n = "nodes" /\ k = 3%nat \/
  s = m_NetworkManagementProxy_FailedNodeListReport /\ n = "failedNodeList" /\ k = 1%nat.
Theorem C11_node_list s n k h mask : node_list_report s n k -> length h = k -> bytes_ok h -> bytes_ok mask ->
  match mask with
  | [] => exists d, decode (s_cls s :: s_cmd s :: h) = Ok (VObj (CMsg s) d) /\ aget n d = None
  | _ => if (length mask <? 28)%nat then decode (s_cls s :: s_cmd s :: h ++ mask) = Err EEOF
         else exists d l, decode (s_cls s :: s_cmd s :: h ++ mask) = Ok (VObj (CMsg s) d) /\ aget n d = Some (VNodeList l) /\ NoDup l /\
           forall x, In x l <-> 1 <= x <= 224 /\ mask_bit mask x = true
  end.
Proof. exact (FieldProofs.node_list s n k h mask). Qed.
Print Assumptions C11_node_list.
Example C11_example : exists m, decode ([82; 2; 1; 0; 1] ++ (129 :: repeat 0 26 ++ [128; 255])) = Ok m /\
  getattr m "nodes" = VNodeList [1; 8; 224] /\ mask_bit (129 :: repeat 0 26 ++ [128; 255]) 224 = true.
Proof. run. vm_compute. split; reflexivity. Qed.

(** * C12 *)
Theorem C12_high_ids_refuted :
  ~ (forall mask d l, length mask = 29%nat -> bytes_ok mask -> decode ([82; 2; 1; 0; 1] ++ mask) = Ok (VObj (CMsg m_NetworkManagementProxy_NodeListReport) d) ->
       aget "nodes" d = Some (VNodeList l) -> forall x, 1 <= x <= 232 -> mask_bit mask x = true -> In x l).
Proof.
  intros H. assert (B : bytes_ok (repeat 255 29)) by small.
  pose proof (C11_node_list m_NetworkManagementProxy_NodeListReport "nodes" 3 [1; 0; 1] (repeat 255 29) (or_introl (conj eq_refl (conj eq_refl eq_refl))) eq_refl ltac:(small) B) as X.
  change (repeat 255 29) with (255 :: repeat 255 28) in X. cbn [length repeat Nat.ltb Nat.leb] in X. destruct X as (d & l & E & G & _ & I).
  specialize (H (repeat 255 29) d l eq_refl B E G 232 ltac:(lia) eq_refl). apply I in H. lia.
Qed.
Print Assumptions C12_high_ids_refuted.
(** Every announced id up to 224 is seen; missing: 225 to 232. *)
Theorem C12_low_ids_partial h mask : length h = 3%nat -> bytes_ok h -> length mask = 29%nat -> bytes_ok mask ->
  exists d l, decode ([82; 2] ++ h ++ mask) = Ok (VObj (CMsg m_NetworkManagementProxy_NodeListReport) d) /\ aget "nodes" d = Some (VNodeList l) /\
    forall x, 1 <= x <= 224 -> mask_bit mask x = true -> In x l.
Proof.
  intros LH BH LM BM. pose proof (C11_node_list m_NetworkManagementProxy_NodeListReport "nodes" 3 h mask (or_introl (conj eq_refl (conj eq_refl eq_refl))) LH BH BM) as X.
  rewrite LM in X. destruct mask as [|y mask]; [discriminate|]. cbn [Nat.ltb Nat.leb] in X. destruct X as (d & l & E & G & _ & I). exists d, l.
  split; [exact E|]. split; [exact G|]. intros x R M. apply I. auto.
Qed.
Print Assumptions C12_low_ids_partial.
(** and none of 225 to 232 ever is *)
Theorem C12_high_ids_never_seen h mask x : length h = 3%nat -> bytes_ok h -> length mask = 29%nat -> bytes_ok mask -> 225 <= x ->
  exists d l, decode ([82; 2] ++ h ++ mask) = Ok (VObj (CMsg m_NetworkManagementProxy_NodeListReport) d) /\ aget "nodes" d = Some (VNodeList l) /\ ~ In x l.
Proof.
  intros LH BH LM BM HX. pose proof (C11_node_list m_NetworkManagementProxy_NodeListReport "nodes" 3 h mask (or_introl (conj eq_refl (conj eq_refl eq_refl))) LH BH BM) as X.
  rewrite LM in X. destruct mask as [|y mask]; [discriminate|]. cbn [Nat.ltb Nat.leb] in X. destruct X as (d & l & E & G & _ & I). exists d, l.
  split; [exact E|]. split; [exact G|]. intros J. apply I in J. lia.
Qed.
Print Assumptions C12_high_ids_never_seen.

(** * C13 *)
Theorem C13_sensor_mask_refuted :
  ~ (forall mask d l, bytes_ok mask -> mask <> [] -> decode ([49; 2] ++ mask) = Ok (VObj (CMsg m_SensorMultilevel_SupportedSensorReport) d) ->
       aget "bitMask" d = Some (VSensors l) -> forall t, 1 <= t -> (In t l <-> mask_bit mask t = true)).
Proof.
  intros H. specialize (H [1; 0] [("bitMask", VSensors [9])] [9] ltac:(small) ltac:(discriminate)).
  assert (E : decode ([49; 2] ++ [1; 0]) = Ok (VObj (CMsg m_SensorMultilevel_SupportedSensorReport) [("bitMask", VSensors [9])])) by (vm_compute; reflexivity).
  destruct (H E eq_refl 1 ltac:(lia)) as [_ X]. destruct (X eq_refl) as [|[]]. discriminate.
Qed.
Print Assumptions C13_sensor_mask_refuted.
(** What does hold: the types announced by the bytes in reverse order, provided all of them are in the library's table. *)
Theorem C13_sensor_mask_partial mask : bytes_ok mask -> mask <> [] ->
  ((forall t, 1 <= t -> mask_bit (rev mask) t = true -> In t sensor_types) ->
     exists d l, decode (49 :: 2 :: mask) = Ok (VObj (CMsg m_SensorMultilevel_SupportedSensorReport) d) /\
       aget "bitMask" d = Some (VSensors l) /\ NoDup l /\ forall t, In t l <-> 1 <= t /\ mask_bit (rev mask) t = true) /\
  ((exists t, 1 <= t /\ mask_bit (rev mask) t = true /\ ~ In t sensor_types) -> decode (49 :: 2 :: mask) = Err EValue).
Proof. exact (FieldProofs.sensor_report mask). Qed.
Print Assumptions C13_sensor_mask_partial.
(** so for reports of one byte whose bits are known sensor types the property is true as stated *)
Theorem C13_one_byte_partial b : 0 <= b < 64 ->
  exists d l, decode [49; 2; b] = Ok (VObj (CMsg m_SensorMultilevel_SupportedSensorReport) d) /\
    aget "bitMask" d = Some (VSensors l) /\ forall t, 1 <= t -> (In t l <-> mask_bit [b] t = true).
Proof.
  intros R. destruct (C13_sensor_mask_partial [b] ltac:(small) ltac:(discriminate)) as [X _]. destruct X as (d & l & E & G & _ & I).
  { intros t T M. unfold mask_bit in M. cbn [rev app] in M.
    assert (t <= 6) as LT.
    { destruct (Z.le_gt_cases t 6); [assumption|]. exfalso. destruct (Z.le_gt_cases t 8).
      - replace ((t - 1) / 8) with 0 in M by (symmetry; apply Z.div_small; lia). cbn [Z.to_nat nth] in M.
        rewrite (Z.mod_small (t - 1) 8) in M by lia. rewrite Z.testbit_eqb in M by lia. rewrite (Z.div_small b) in M; [discriminate|].
        split; [lia|]. assert (2 ^ 6 <= 2 ^ (t - 1)) by (apply Z.pow_le_mono_r; lia). change (2 ^ 6) with 64 in *. lia.
      - rewrite nth_overflow in M; [rewrite Z.bits_0 in M; discriminate|]. cbn [length]. assert (1 <= (t - 1) / 8) by (apply Z.div_le_lower_bound; lia). lia. }
    assert (t = 1 \/ t = 2 \/ t = 3 \/ t = 4 \/ t = 5 \/ t = 6) as D by lia. unfold sensor_types. cbn [In]. intuition subst; auto 10. }
  exists d, l. split; [exact E|]. split; [exact G|]. intros t T. rewrite I. cbn [rev app]. tauto.
Qed.
Print Assumptions C13_one_byte_partial.
Example C13_example : exists m, decode [49; 2; 33] = Ok m /\ getattr m "bitMask" = VSensors [1; 6].
Proof. run. reflexivity. Qed.

(** * C14 *)
(** every registered class with a member list *)
Theorem C14_members_round_trip s d b l : In s registry -> (exists a, In a (s_attrs s) /\ a_ty a = TNodes) ->
  encodes (VObj (CMsg s) d) b -> aget "nodes" d = Some (VNodes l) -> (forall n, In (n, None) l -> n <> 0) ->
  exists bs d', compose (VObj (CMsg s) d) = Ok bs /\ decode bs = Ok (VObj (CMsg s) d') /\
    (l <> [] -> aget "nodes" d' = Some (VNodes (wire_order l))) /\
    (forall n t, n <> "nodes" -> declared n (s_attrs s) = Some t -> same_val (read_attr t n d) (read_attr t n d')) /\
    (l = [] -> same_val (VNodes []) (getattr (VObj (CMsg s) d') "nodes")).
Proof. intros A B. exact (ValueProofs.members_round_trip s d b l (conj A B)). Qed.
Print Assumptions C14_members_round_trip.
Theorem C14_members_text l : members_ok l -> nodes_setstate (nodes_getstate l) = Ok (VNodes l).
Proof. exact (ValueProofs.nodes_text l). Qed.
Print Assumptions C14_members_text.
Example C14_example : exists m, new_msg m_MultiChannelAssociation_MultiChannelSet [("groupingIdentifier", VInt 1); ("nodes", VNodes [(5, Some 2); (7, None); (5, Some 3); (1, None)])] = Ok m /\
  exists bs, compose m = Ok bs /\ exists m', decode bs = Ok m' /\ getattr m' "nodes" = VNodes [(7, None); (1, None); (5, Some 2); (5, Some 3)].
Proof. run. run. run. reflexivity. Qed.
Example C14_example_encodes : exists b, encodes (VObj (CMsg m_Association_Set) [("groupingIdentifier", VI false 1 1); ("nodes", VNodes [(5, None); (7, None)])]) b.
Proof.
  eexists. apply (E_msg m_Association_Set); [in_reg|]. cbn [s_attrs m_Association_Set].
  apply F_cons; [eapply F_set; [reflexivity|reflexivity|apply (FB_int false 1); cbn; lia]|].
  apply F_cons; [eapply F_set; [reflexivity|reflexivity|apply FB_nodes; unfold members_ok; cbn; repeat constructor; cbn; lia]|]. apply F_nil.
Qed.
Example C14_example_text : nodes_getstate [(5, Some 2); (17, None)] = VList [VStr [53; 58; 50]; VStr [49; 55]].
Proof. reflexivity. Qed.

(** * C15 *)
Theorem C15_dsk_text bs : bytes_ok bs -> length bs = 16%nat ->
  exists gs, dsk_text bs = Ok (join [45] gs) /\ length gs = 8%nat /\
    Forall2 (fun g k => length g = 5%nat /\ Forall (fun c => 48 <= c <= 57) g /\ py_int g = Ok (256 * nth (2 * k) bs 0 + nth (2 * k + 1) bs 0)) gs (seq 0 8).
Proof. exact (ValueProofs.dsk_text_shape bs). Qed.
Print Assumptions C15_dsk_text.
Theorem C15_dsk_round_trip bs : bytes_ok bs -> length bs = 16%nat -> exists t, dsk_text bs = Ok t /\ dsk_setstate (VStr t) = Ok (VDsk bs).
Proof. exact (ValueProofs.dsk_round_trip bs). Qed.
Print Assumptions C15_dsk_round_trip.
Theorem C15_dsk_injective bs bs' t : bytes_ok bs -> length bs = 16%nat -> bytes_ok bs' -> length bs' = 16%nat ->
  dsk_text bs = Ok t -> dsk_text bs' = Ok t -> bs = bs'.
Proof.
  intros B L B' L' E E'. destruct (ValueProofs.dsk_round_trip bs B L) as (u & U1 & U2). destruct (ValueProofs.dsk_round_trip bs' B' L') as (v & V1 & V2). congruence.
Qed.
Print Assumptions C15_dsk_injective.
Theorem C15_dsk_bytes bs : dsk_setstate (VBytes bs) = if (zlen bs =? 16) || (zlen bs =? 0) then Ok (VDsk bs) else Err EValue.
Proof. reflexivity. Qed.
Print Assumptions C15_dsk_bytes.
Example C15_example : exists t, dsk_text [0; 1; 255; 255; 4; 210; 0; 0; 1; 0; 0; 9; 12; 13; 14; 15] = Ok t /\
  t = [48;48;48;48;49;45; 54;53;53;51;53;45; 48;49;50;51;52;45; 48;48;48;48;48;45; 48;48;50;53;54;45; 48;48;48;48;57;45; 48;51;48;56;53;45; 48;51;53;57;57].
Proof. run. reflexivity. Qed.

(** * C16 *)
(** The text of a DSK: eight numbers below 65536 separated by dashes. *)
Definition dsk_words_of (t : pystr) (ws : list Z) : Prop :=
  exists gs, t = join [45] gs /\ Forall2 (fun g w => py_int g = Ok w /\ ~ In 45 g) gs ws /\ length ws = 8%nat /\ Forall (fun w => 0 <= w < 65536) ws.
Theorem C16_malformed_text_refuted :
  ~ (forall t, (forall ws, ~ dsk_words_of t ws) -> exists e, dsk_setstate (VStr t) = Err e).
Proof.
  intros H. destruct (H [49; 45; 50]) as [e E]; [|discriminate].
  intros ws (gs & E & F & L & _). assert (length gs = 8%nat) by (rewrite <- L; clear - F; induction F; cbn; congruence).
  do 8 (destruct gs as [|? gs]; [discriminate|]). clear - E. apply (f_equal (@length Z)) in E. cbn [join] in E. rewrite !app_length in E. cbn [length] in E. lia.
Qed.
Print Assumptions C16_malformed_text_refuted.
(** a text without eight groups is accepted as the empty key, and words above 65535 are cut *)
Theorem C16_other_lengths_accepted t : zlen (split 45 t) <> 8 -> dsk_setstate (VStr t) = Ok (VDsk []).
Proof. intros N. cbn [dsk_setstate]. destruct (Z.eqb_spec (zlen (split 45 t)) 8); [contradiction|reflexivity]. Qed.
Print Assumptions C16_other_lengths_accepted.
Example C16_example_cut : dsk_setstate (VStr (join [45] (repeat [54; 53; 53; 51; 55] 8))) = Ok (VDsk (concat (repeat [0; 1] 8))).
Proof. vm_compute. reflexivity. Qed.
(** What holds: eight groups of which one is not a number raise ValueError, and proper texts give exactly their words.
    Missing: texts with another number of groups and words out of range. *)
Theorem C16_not_a_number_partial t : zlen (split 45 t) = 8 -> (exists g, In g (split 45 t) /\ py_int g = Err EValue) ->
  dsk_setstate (VStr t) = Err EValue.
Proof.
  intros L (g & I & E). cbn [dsk_setstate]. rewrite L. cbn [Z.eqb Pos.eqb negb].
  assert (X : map_res py_int (split 45 t) = Err EValue); [|rewrite X; reflexivity].
  revert I. clear L. induction (split 45 t) as [|x l IH]; intros I; [destruct I|]. cbn [map_res].
  destruct I as [->|I]; [rewrite E; reflexivity|]. destruct (py_int x) eqn:P; [cbn [bind]; rewrite (IH I); reflexivity|].
  cbn [bind]. f_equal. exact (ReportProofs.py_int_err _ _ P).
Qed.
Print Assumptions C16_not_a_number_partial.
Theorem C16_words_partial ws : length ws = 8%nat -> Forall (fun w => 0 <= w < 65536) ws ->
  dsk_setstate (VStr (join [45] (map (fun w => pad5 (str_of_Z w)) ws))) = Ok (VDsk (flat_map (fun w => [w / 256; w mod 256]) ws)).
Proof.
  intros L F. rewrite ValueProofs.words_text_ok by assumption. do 2 f_equal. clear L. induction F as [|w ws R F IH]; [reflexivity|].
  cbn [flat_map]. rewrite IH. f_equal. unfold dsk_of_word. rewrite Z.shiftr_div_pow2 by lia. change 255 with (Z.ones 8). rewrite !Z.land_ones by lia.
  change (2 ^ 8) with 256. rewrite (Z.mod_small (w / 256)); [reflexivity|]. split; [apply Z.div_pos; lia|apply Z.div_lt_upper_bound; lia].
Qed.
Print Assumptions C16_words_partial.
Example C16_example : dsk_setstate (VStr (join [45] ([120] :: repeat [49] 7))) = Err EValue.
Proof. vm_compute. reflexivity. Qed.

(** * C17 *)
(** [VFloatT m p sz sc] is the measured value [m / 10^p] with size [sz] and scale [sc]. *)
Theorem C17_sensor_value ty hdr m tl : bytes_ok (ty :: hdr :: m ++ tl) ->
  (zlen m = hdr mod 8 -> exists d, decode (49 :: 5 :: ty :: hdr :: m ++ tl) = Ok (VObj (CMsg m_SensorMultilevel_Report) d) /\
     aget "sensorType" d = Some (VI false 1 ty) /\ aget "sensorValue" d = Some (VFloatT (snum (bits_of m)) (hdr / 32) (hdr mod 8) (hdr / 8 mod 4))) /\
  (tl = [] -> zlen m < hdr mod 8 -> decode (49 :: 5 :: ty :: hdr :: m) = Err EEOF).
Proof. exact (ValueProofs.sensor_value ty hdr m tl). Qed.
Print Assumptions C17_sensor_value.
(** meters: [h] is the meter header, [tl] the delta time and previous value *)
Theorem C17_meter_value h hdr m tl : bytes_ok (h :: hdr :: m ++ tl) -> zlen m = hdr mod 8 -> zlen tl <> 1 ->
  exists d, decode (50 :: 2 :: h :: hdr :: m ++ tl) = Ok (VObj (CMsg m_Meter_Report) d) /\
    aget "scale2" d = Some (VF (h / 128)) /\ aget "meterType" d = Some (VB 5 (h mod 32)) /\
    aget "meterValue" d = Some (VFloatT (snum (bits_of m)) (hdr / 32) (hdr mod 8) (hdr / 8 mod 4)) /\
    aget "deltaTime" d = match tl with a :: b :: _ => Some (VI false 2 (256 * a + b)) | _ => None end /\
    meter_scale (VObj (CMsg m_Meter_Report) d) = Ok (4 * (h / 128) + hdr / 8 mod 4).
Proof. exact (ReportProofs.meter_value h hdr m tl). Qed.
Print Assumptions C17_meter_value.
Theorem C17_meter_cut h hdr m : bytes_ok (h :: hdr :: m) -> zlen m < hdr mod 8 -> decode (50 :: 2 :: h :: hdr :: m) = Err EEOF.
Proof. exact (ReportProofs.meter_eof h hdr m). Qed.
Print Assumptions C17_meter_cut.
Example C17_example : exists m, decode [49; 5; 1; 42; 255; 56] = Ok m /\ getattr m "sensorValue" = VFloatT (-200) 1 2 1.
Proof. run. reflexivity. Qed.
Example C17_example_meter : exists m, decode [50; 2; 161; 116; 0; 0; 1; 244; 0; 30] = Ok m /\ getattr m "meterValue" = VFloatT 500 3 4 2 /\ meter_scale m = Ok 6.
Proof. run. vm_compute. split; reflexivity. Qed.

(** * C18 (the part about the connection is with the connection properties) *)
Theorem C18_ack_answers f0 f1 sq se de rest m ok w q o : bytes_ok (35 :: 2 :: [f0; f1; sq; se; de] ++ rest) ->
  decode (35 :: 2 :: [f0; f1; sq; se; de] ++ rest) = Ok m ->
  exists d, zip_response m ok w q o = Ok (VObj (CMsg m_Zip_ZipPacket) d) /\
    compose (VObj (CMsg m_Zip_ZipPacket) d) = Ok [35; 2; ack_flags ok w q o; 16 * (f1 / 16 mod 2); sq; de mod 128; se mod 128] /\
    aget "ackRequest" d = Some (VF 0) /\ aget "ackResponse" d = Some (VF (b2 ok)) /\ aget "nackResponse" d = Some (VF (b2 (negb ok))) /\
    aget "nackWaiting" d = Some (VF (b2 w)) /\ aget "nackQueueFull" d = Some (VF (b2 q)) /\ aget "nackOptionError" d = Some (VF (b2 o)) /\
    aget "headerExtIncluded" d = Some (VF 0) /\ aget "zwCmdIncluded" d = Some (VF 0) /\ aget "secureOrigin" d = Some (VF (f1 / 16 mod 2)) /\
    aget "seqNo" d = Some (VI false 1 sq) /\ aget "sourceEP" d = Some (VU 7 (de mod 128)) /\ aget "destEP" d = Some (VU 7 (se mod 128)) /\
    aget "command" d = Some (VObj CPure []).
Proof. exact (ReportProofs.ack_answers f0 f1 sq se de rest m ok w q o). Qed.
Print Assumptions C18_ack_answers.
(** and the peer reads the same fields and no command *)
Theorem C18_ack_read ok w q o (so : bool) sq a b : 0 <= sq < 256 -> 0 <= a < 128 -> 0 <= b < 128 ->
  exists d, decode [35; 2; ack_flags ok w q o; 16 * b2 so; sq; a; b] = Ok (VObj (CMsg m_Zip_ZipPacket) d) /\
    aget "ackRequest" d = Some (VF 0) /\ aget "ackResponse" d = Some (VF (b2 ok)) /\ aget "nackResponse" d = Some (VF (b2 (negb ok))) /\
    aget "nackWaiting" d = Some (VF (b2 w)) /\ aget "nackQueueFull" d = Some (VF (b2 q)) /\ aget "nackOptionError" d = Some (VF (b2 o)) /\
    aget "headerExtIncluded" d = Some (VF 0) /\ aget "zwCmdIncluded" d = Some (VF 0) /\ aget "secureOrigin" d = Some (VF (b2 so)) /\
    aget "seqNo" d = Some (VI false 1 sq) /\ aget "sourceEP" d = Some (VU 7 a) /\ aget "destEP" d = Some (VU 7 b) /\
    aget "headerExtension" d = None /\ aget "command" d = None.
Proof. exact (ReportProofs.ack_read ok w q o so sq a b). Qed.
Print Assumptions C18_ack_read.
Example C18_example : exists m, decode [35; 2; 128; 80; 7; 3; 5; 32; 1; 200] = Ok m /\ exists r, zip_response m false true false false = Ok r /\
  compose r = Ok [35; 2; 48; 16; 7; 5; 3].
Proof. run. run. vm_compute. reflexivity. Qed.

(** * C21 *)
Theorem C21_configuration_set p (df : bool) sz v : 0 <= p < 256 -> 0 <= sz < 8 ->
  exists m, new_msg m_Configuration_Set [("parameterNumber", VInt p); ("default", VBool df); ("size", VInt sz); ("value", VInt v)] = Ok m /\
   (forall bs, bytes_ok bs -> zlen bs = sz -> v = num (bits_of bs) -> compose m = Ok ([112; 4; p; 128 * b2 df + sz] ++ bs)) /\
   (v < 0 \/ 2 ^ (8 * sz) <= v -> compose m = Err EOverflow).
Proof. intros A B. destruct (ReportProofs.cfg_set p df sz v A B) as (d & X). eauto. Qed.
Print Assumptions C21_configuration_set.
Theorem C21_configuration_report p x bs tl : bytes_ok (p :: x :: bs ++ tl) -> zlen bs = x mod 8 -> bs ++ tl <> [] ->
  exists d, decode (112 :: 6 :: p :: x :: bs ++ tl) = Ok (VObj (CMsg m_Configuration_Report) d) /\
    aget "parameterNumber" d = Some (VI false 1 p) /\ aget "size" d = Some (VU 3 (x mod 8)) /\ aget "value" d = Some (VInt (num (bits_of bs))).
Proof. exact (ReportProofs.cfg_report p x bs tl). Qed.
Print Assumptions C21_configuration_report.
Theorem C21_configuration_report_cut p x bs : bytes_ok (p :: x :: bs) -> zlen bs < x mod 8 -> bs <> [] -> decode (112 :: 6 :: p :: x :: bs) = Err EEOF.
Proof. exact (ReportProofs.cfg_report_eof p x bs). Qed.
Print Assumptions C21_configuration_report_cut.
Example C21_example : num (bits_of [1; 244]) = 500 /\ exists m, new_msg m_Configuration_Set [("parameterNumber", VInt 9); ("default", VBool false); ("size", VInt 2); ("value", VInt 500)] = Ok m /\
  compose m = Ok [112; 4; 9; 2; 1; 244].
Proof. split; [reflexivity|]. run. vm_compute. reflexivity. Qed.

(** * C22 *)
Theorem C22_command_list g prs tl : 0 <= g < 256 -> 2 * zlen prs < 256 -> bytes_ok (flat_map pair_bytes prs ++ tl) ->
  exists d, decode (89 :: 6 :: g :: 2 * zlen prs :: flat_map pair_bytes prs ++ tl) = Ok (VObj (CMsg m_AssociationGrpInfo_GroupCommandListReport) d) /\
    aget "groupingIdentifier" d = Some (VI false 1 g) /\ aget "commandClass" d = Some (VList (map pair_value prs)).
Proof. exact (ReportProofs.command_list g prs tl). Qed.
Print Assumptions C22_command_list.
Theorem C22_command_list_cut g prs x len : 0 <= g < 256 -> 0 <= len < 256 -> 2 * zlen prs < len -> (length x < 2)%nat -> bytes_ok (flat_map pair_bytes prs ++ x) ->
  decode (89 :: 6 :: g :: len :: flat_map pair_bytes prs ++ x) = Err EEOF.
Proof. exact (ReportProofs.command_list_eof g prs x len). Qed.
Print Assumptions C22_command_list_cut.
Theorem C22_group_info h gs tl : 0 <= h < 256 -> h mod 64 = zlen gs -> gs <> [] -> Forall group_ok gs -> bytes_ok tl ->
  exists d vs, decode (89 :: 4 :: h :: flat_map group_bytes gs ++ tl) = Ok (VObj (CMsg m_AssociationGrpInfo_GroupInfoReport) d) /\
    aget "groupCount" d = Some (VB 6 (h mod 64)) /\ aget "groups" d = Some (VList vs) /\ Forall2 group_reads gs vs.
Proof. exact (ReportProofs.group_info h gs tl). Qed.
Print Assumptions C22_group_info.
Example C22_example : exists m, decode [89; 6; 1; 4; 32; 1; 38; 3] = Ok m /\ getattr m "commandClass" = VList [pair_value (32, 1); pair_value (38, 3)].
Proof. run. reflexivity. Qed.
Example C22_example_groups : Forall group_ok [(1, 0, 1, 0, 0); (2, 0, 8193, 0, 7)] /\
  exists m, decode ([89; 4; 130] ++ flat_map group_bytes [(1, 0, 1, 0, 0); (2, 0, 8193, 0, 7)]) = Ok m /\
  exists a b, getattr m "groups" = VList [a; b] /\ getattr a "profile" = VI false 2 1 /\ getattr b "profile" = VI false 2 8193.
Proof. split; [repeat (constructor; [cbn; unfold byte; lia|]); constructor|]. run. eexists _, _. split; [reflexivity|]. split; reflexivity. Qed.
