(** C01-C06, C08, C19, C20: wire format of messages.  Statements only; the proofs are in the lemmas named. *)
From Coq Require Import String ZArith List Bool Lia.
From Verif Require Import Py BitStream Schema Registry Codec SpecBits SpecWire SpecDecode SpecRound SpecStream.
From Verif Require BitLemmas EncodeProofs DecodeProofs RoundTrip CodecProofs.
Import ListNotations.
Open Scope list_scope.
Open Scope Z_scope.
Open Scope string_scope.
Open Scope list_scope.

(** * C01 *)
(** Every message whose set attributes are in range is composed to exactly the declared bits. *)
Theorem C01_compose_layout m b : encodes m b -> exists bs, compose m = Ok bs /\ bytes_ok bs /\ bits_of bs = b.
Proof. intros H. exact (proj2 (proj1 EncodeProofs.compose_all m b H)). Qed.
Print Assumptions C01_compose_layout.

(** The same from the constructor call: for every registered class and all keyword arguments in range. *)
Theorem C01_construct_compose s kw b : In s registry -> args s kw (s_attrs s) b ->
  exists m bs, new_msg s kw = Ok m /\ compose m = Ok bs /\ bytes_ok bs /\
    bits_of bs = nbits 8 (s_cls s) ++ nbits 8 (s_cmd s) ++ b.
Proof. exact (CodecProofs.new_msg_compose s kw b). Qed.
Print Assumptions C01_construct_compose.

(** a Z/IP packet around a Basic.Set, and an association with plain and endpoint members *)
Definition ex_basic : val := VObj (CMsg m_Basic_Set) [("value", VI false 1 200)].
Definition ex_zip_kw : adict :=
  [("ackRequest", VBool true); ("ackResponse", VBool false); ("nackResponse", VBool false); ("nackWaiting", VBool false);
   ("nackQueueFull", VBool false); ("nackOptionError", VBool false); ("headerExtIncluded", VBool false);
   ("zwCmdIncluded", VBool true); ("moreInformation", VBool false); ("secureOrigin", VBool true); ("seqNo", VInt 7);
   ("sourceEP", VInt 0); ("destEP", VInt 3); ("command", ex_basic)].
(** evaluate the left side of [exists x, e = Ok x /\ ...] and give its value *)
Local Ltac run := match goal with |- exists x, ?e = Ok x /\ _ =>
  let v := eval vm_compute in e in match v with Ok ?m => exists m end; split; [vm_compute; reflexivity|] end.
Local Ltac in_reg := unfold registry; repeat (first [left; reflexivity | right]).
Local Ltac same_ty := let a := fresh in let I := fresh in let N := fresh in intros a I N; revert N; cbn in I;
  repeat (destruct I as [<-|I]; [cbn; intros N; first [discriminate N|reflexivity]|]); contradiction I.
Local Ltac arg := first [apply AB_int|apply AB_ub|apply AB_bits|apply AB_res|apply AB_flag|apply AB_bytes|apply AB_ip]; try (cbn; lia).
Example ex_basic_encodes : encodes ex_basic (nbits 8 32 ++ nbits 8 1 ++ nbits 8 200 ++ []).
Proof.
  apply (E_msg m_Basic_Set). { in_reg. } apply F_cons; [|apply F_nil].
  eapply F_set; [reflexivity|reflexivity|]. apply (FB_int false 1). cbn. lia.
Qed.
Example C01_example : In m_Zip_ZipPacket registry /\ exists b, args m_Zip_ZipPacket ex_zip_kw (s_attrs m_Zip_ZipPacket) b.
Proof.
  split; [in_reg|]. eexists. cbn [s_attrs m_Zip_ZipPacket].
  repeat first [ eapply AR_set; [reflexivity|reflexivity|arg|same_ty|]
               | eapply AR_unset; [reflexivity|constructor|] ].
  eapply AR_set; [reflexivity|reflexivity|apply AB_msg; exact ex_basic_encodes|same_ty|]. apply AR_nil.
Qed.
Example C01_example_value : exists m, new_msg m_Zip_ZipPacket ex_zip_kw = Ok m /\
  compose m = Ok [35; 2; 128; 80; 7; 0; 3; 32; 1; 200].
Proof. run. vm_compute. reflexivity. Qed.

(** * C02 *)
Theorem C02_decode_layout s p : In s registry -> flat_class s = true -> bytes_ok p ->
  match cut (s_attrs s) (bits_of p) with
  | None => decode (s_cls s :: s_cmd s :: p) = Err EEOF
  | Some cs =>
      exists d, decode (s_cls s :: s_cmd s :: p) = Ok (VObj (CMsg s) d) /\
      forall n, match last_piece n (s_attrs s) cs with
                | None => aget n d = None
                | Some c => exists v t, aget n d = Some v /\ declared n (s_attrs s) = Some t /\ reads t c v
                end
  end.
Proof. exact (DecodeProofs.decode_flat s p). Qed.
Print Assumptions C02_decode_layout.
(** what reading an attribute of the decoded message gives *)
Theorem C02_absent_reads_default s d n : getattr (VObj (CMsg s) d) n =
  match aget n d with Some v => v | None => match declared n (s_attrs s) with Some t => default_of t | None => VNone end end.
Proof. exact (DecodeProofs.getattr_spec s d n). Qed.
Print Assumptions C02_absent_reads_default.
Example C02_example : In m_Configuration_BulkReport registry /\ flat_class m_Configuration_BulkReport = true /\
  cut (s_attrs m_Configuration_BulkReport) (bits_of [1; 2; 3; 0; 130; 9; 9]) <> None /\
  cut (s_attrs m_Configuration_BulkReport) (bits_of [1]) = None.
Proof. split; [in_reg|]. split; [reflexivity|]. split; [vm_compute; discriminate|reflexivity]. Qed.
(** the classes covered: 83 of the 102 *)
Example C02_coverage : length registry = 102%nat /\ length (filter flat_class registry) = 83%nat.
Proof. split; vm_compute; reflexivity. Qed.

(** * C03 *)
Theorem C03_round_trip m b : encodes m b -> symmetric m ->
  exists bs m', compose m = Ok bs /\ decode bs = Ok m' /\ same_val m m'.
Proof. exact (RoundTrip.round_trip m b). Qed.
Print Assumptions C03_round_trip.
(** any depth of Z/IP encapsulation without header extension is symmetric *)
Definition zip_around (m : val) : val := VObj (CMsg m_Zip_ZipPacket)
  [("ackRequest", VF 0); ("ackResponse", VF 0); ("nackResponse", VF 0); ("nackWaiting", VF 0);
   ("nackQueueFull", VF 0); ("nackOptionError", VF 0); ("headerExtIncluded", VF 0);
   ("zwCmdIncluded", VF 1); ("moreInformation", VF 0); ("secureOrigin", VF 1); ("seqNo", VI false 1 7);
   ("sourceEP", VU 7 0); ("destEP", VU 7 3); ("command", m)].
Fixpoint nest (n : nat) : val := match n with O => ex_basic | S n' => zip_around (nest n') end.
Example C03_example n : symmetric (nest n) /\ exists b, encodes (nest n) b.
Proof.
  induction n as [|n [IS (b & IE)]]; cbn [nest].
  - split; [|eexists; exact ex_basic_encodes]. unfold ex_basic. constructor; cbn; intros a; intros.
    + destruct H as [<-|[]]. cbn. auto.
    + destruct H as [<-|[]]. discriminate.
    + destruct H as [<-|[]]. discriminate.
  - split.
    + unfold zip_around. constructor.
      * cbn. intros a IN. repeat (destruct IN as [<-|IN]; [split; [reflexivity|first [left; reflexivity|right; repeat split; left; reflexivity]]|]). contradiction.
      * cbn. intros a l IN. repeat (destruct IN as [<-|IN]; [intros X; discriminate X|]). contradiction.
      * cbn. intros a m IN. repeat (destruct IN as [<-|IN]; [intros T X; first [discriminate T|injection X as <-; auto]|]). contradiction.
    + eexists. apply E_msg; [in_reg|]. unfold zip_around. cbn [s_attrs m_Zip_ZipPacket].
      repeat (apply F_cons; [first [ eapply F_unset; [reflexivity|constructor]
                                   | eapply F_set; [reflexivity|reflexivity|apply (FB_flag false)]
                                   | eapply F_set; [reflexivity|reflexivity|apply (FB_flag true)]
                                   | eapply F_set; [reflexivity|reflexivity|apply FB_int; cbn; lia]
                                   | eapply F_set; [reflexivity|reflexivity|apply FB_ub; cbn; lia]
                                   | eapply F_cmd; [reflexivity|reflexivity|reflexivity|exact IE] ]|]).
      apply F_nil.
Qed.
(** Outside the symmetric classes the round trip does fail: a supervision encapsulation is composed without the
    length byte that its decoder expects. *)
Theorem C03_asymmetric_refuted : ~ (forall m b, encodes m b ->
  exists bs m', compose m = Ok bs /\ decode bs = Ok m' /\ same_val m m').
Proof. exact CodecProofs.round_trip_fails. Qed.
Print Assumptions C03_asymmetric_refuted.

(** * C04 *)
(** The full statement is false ... *)
Theorem C04_refuted : ~ (forall s d a v, In s registry -> In a (s_attrs s) -> aget (a_name a) d = Some v ->
  a_compose a = None -> typed (a_ty a) v -> out_of_range v -> exists e, compose (VObj (CMsg s) d) = Err e).
Proof. exact CodecProofs.out_of_range_accepted. Qed.
Print Assumptions C04_refuted.
(** ... because a too large bit field that does not start a byte runs into the fields before it: here a session id
    of 128 in a supervision report turns the "more status updates" flag on. *)
Theorem C04_alters_other_attribute_refuted : exists m,
  new_msg m_Supervision_Report [("moreStatusUpdates", VBool false); ("wakeUpRequest", VBool false); ("sessionID", VInt 128); ("status", VInt 255); ("duration", VInt 0)] = Ok m /\
  getattr m "moreStatusUpdates" = VF 0 /\ exists bs, compose m = Ok bs /\
  exists m', decode bs = Ok m' /\ getattr m' "moreStatusUpdates" = VF 1.
Proof. run. split; [reflexivity|]. run. run. reflexivity. Qed.
Print Assumptions C04_alters_other_attribute_refuted.
(** What does hold: whole byte integers out of range, negative numbers, and bit fields too large for what is left
    of the byte counted from its start, always raise. *)
Theorem C04_rejected_partial s d pre a post b v :
  In s registry -> s_attrs s = pre ++ a :: post -> fields d pre b ->
  aget (a_name a) d = Some v -> a_compose a = None -> typed (a_ty a) v ->
  noticed (Z.of_nat (length b) mod 8) v ->
  exists e, compose (VObj (CMsg s) d) = Err e.
Proof. exact (CodecProofs.reject_out_of_range s d pre a post b v). Qed.
Print Assumptions C04_rejected_partial.
Example C04_example : exists d pre a post b, s_attrs m_Supervision_Get = pre ++ a :: post /\ a_name a = "sessionID" /\
  fields d pre b /\ aget (a_name a) d = Some (VB 6 256) /\ a_compose a = None /\ typed (a_ty a) (VB 6 256) /\
  noticed (Z.of_nat (length b) mod 8) (VB 6 256).
Proof.
  exists [("statusUpdates", VF 0); ("sessionID", VB 6 256)], (firstn 2 (s_attrs m_Supervision_Get)), (mkA "sessionID" (TBits 6) None None),
    (skipn 3 (s_attrs m_Supervision_Get)), ([false] ++ repeat false 1 ++ []).
  split; [reflexivity|]. split; [reflexivity|]. split.
  - cbn [firstn s_attrs m_Supervision_Get]. apply F_cons; [eapply F_set; [reflexivity|reflexivity|apply (FB_flag false)]|].
    apply F_cons; [|apply F_nil]. apply F_unset; [reflexivity|]. apply (DB_res 1).
  - repeat split. right. vm_compute. discriminate.
Qed.

(** * C05 *)
Theorem C05_short bs : (length bs < 2)%nat -> decode bs = Ok (VObj (CUnknown 0) []).
Proof. exact (DecodeProofs.decode_short bs). Qed.
Print Assumptions C05_short.
Theorem C05_unregistered c m p : bytes_ok (c :: m :: p) -> ~ is_registered c m ->
  decode (c :: m :: p) = Ok (VObj (CUnknown (256 * c + m)) []).
Proof. exact (DecodeProofs.decode_unregistered c m p). Qed.
Print Assumptions C05_unregistered.
Theorem C05_registered c m p : bytes_ok (c :: m :: p) -> is_registered c m ->
  (exists e, decode (c :: m :: p) = Err e) \/
  exists s d, decode (c :: m :: p) = Ok (VObj (CMsg s) d) /\ In s registry /\ s_cls s = c /\ s_cmd s = m.
Proof. exact (DecodeProofs.decode_registered c m p). Qed.
Print Assumptions C05_registered.
Example C05_example : is_registered 32 1 /\ ~ is_registered 32 9.
Proof. split; [exists m_Basic_Set; split; [in_reg|split; reflexivity]|]. intros (s & I & E1 & E2). cbn in I.
  repeat (destruct I as [<-|I]; [cbn in E1, E2; discriminate|]). exact I. Qed.

(** * C06 *)
Theorem C06_registry_injective : NoDup (map (fun s => (s_cls s, s_cmd s)) registry).
Proof. exact DecodeProofs.registry_pairs_nodup. Qed.
Print Assumptions C06_registry_injective.
Theorem C06_decode_id c m p v : bytes_ok (c :: m :: p) -> decode (c :: m :: p) = Ok v -> hid v = 256 * c + m.
Proof. exact (DecodeProofs.decode_id c m p v). Qed.
Print Assumptions C06_decode_id.
Theorem C06_compose_id s d bs : In s registry -> compose (VObj (CMsg s) d) = Ok bs -> exists t, bs = s_cls s :: s_cmd s :: t.
Proof. exact (DecodeProofs.compose_id s d bs). Qed.
Print Assumptions C06_compose_id.
Example C06_example : exists v, decode [32; 1; 200] = Ok v /\ compose v = Ok [32; 1; 200].
Proof. run. vm_compute. reflexivity. Qed.

(** * C08 *)
Theorem C08_stream_round_trip l : pieces_ok 0 l ->
  exists w pad, write_all l new_writer = Ok w /\ bytes_ok (w_buf w) /\ bits_of (w_buf w) = flat_map piece_bits l ++ pad
    /\ (length pad < 8)%nat /\ (forall x, In x pad -> x = false)
    /\ read_all l (new_reader (w_buf w)) = Ok (map piece_val l).
Proof. exact (CodecProofs.stream_round_trip l). Qed.
Print Assumptions C08_stream_round_trip.
Example C08_example : pieces_ok 0 [PSub 3 5; PSub 5 17; PInt true 2 (-300); PInt false 3 70000; PSub 1 1; PSub 2 2].
Proof. cbn. repeat split; try lia. Qed.

(** * C19 *)
(** False in general: a Z/IP packet whose second group of reserved bits is not zero comes back with other flags. *)
Theorem C19_refuted : ~ (forall bs m, bytes_ok bs -> decode bs = Ok m -> (exists bs', compose m = Ok bs') -> compose m = Ok bs).
Proof. exact CodecProofs.reencode_fails. Qed.
Print Assumptions C19_refuted.
Theorem C19_flags_refuted : exists m, decode [35; 2; 64; 95; 7; 0; 0; 32; 1; 200] = Ok m /\ getattr m "nackQueueFull" = VF 0 /\
  exists bs', compose m = Ok bs' /\ exists m', decode bs' = Ok m' /\ getattr m' "nackQueueFull" = VF 1.
Proof. run. split; [reflexivity|]. run. run. reflexivity. Qed.
Print Assumptions C19_flags_refuted.
(** True for every class with a flat layout and distinct attribute names and every payload of full length. *)
Theorem C19_reencode_partial s p : In s registry -> flat_class s = true -> NoDup (map a_name (s_attrs s)) -> bytes_ok p ->
  full_payload (s_attrs s) (8 * length p) ->
  exists m, decode (s_cls s :: s_cmd s :: p) = Ok m /\ compose m = Ok (s_cls s :: s_cmd s :: p).
Proof. exact (CodecProofs.reencode s p). Qed.
Print Assumptions C19_reencode_partial.
Example C19_example : flat_class m_Configuration_BulkReport = true /\ NoDup (map a_name (s_attrs m_Configuration_BulkReport)) /\
  full_payload (s_attrs m_Configuration_BulkReport) (8 * length [1; 2; 3; 0; 130; 9; 9]).
Proof.
  split; [reflexivity|]. split; [cbn; repeat constructor; cbn; intuition discriminate|]. right. split; [reflexivity|]. cbn. lia.
Qed.

(** * C20 *)
(** False: a decoded node list report cannot be compared with anything, not even itself. *)
Theorem C20_refuted : exists m, decode ([82; 2; 1; 0; 1] ++ repeat 255 29) = Ok m /\ py_eq m m = Err EValue.
Proof. run. vm_compute. reflexivity. Qed.
Print Assumptions C20_refuted.
Theorem C20_eq_partial m1 m2 b1 b2 : encodes m1 b1 -> encodes m2 b2 ->
  exists r, py_eq m1 m2 = Ok r /\ (r = true <-> b1 = b2).
Proof. exact (CodecProofs.eq_encodes m1 m2 b1 b2). Qed.
Print Assumptions C20_eq_partial.
Example C20_example : exists b, encodes ex_basic b. Proof. eexists. exact ex_basic_encodes. Qed.
