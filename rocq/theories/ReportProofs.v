(** C17 (meter), C18, C21, C22. *)
From Coq Require Import String ZArith List Bool Lia ZifyBool ZifyNat.
From Verif Require Import Py BitStream Schema Registry Codec Text SpecBits BitLemmas ReaderLemmas WriterLemmas SpecWire SpecDecode SpecRound SpecTotal
  EncodeProofs DecodeLemmas DecodeProofs RoundTrip CodecProofs ParseRel TotalProofs ByteReader SpecFields HeaderProofs FieldProofs ValueProofs.
Import ListNotations.
Open Scope list_scope.
Open Scope string_scope.
Open Scope list_scope.
Open Scope Z_scope.
Local Ltac Zify.zify_post_hook ::= Z.div_mod_to_equations.
Local Ltac in_reg := unfold registry; repeat (first [left; reflexivity | right]).

Lemma num_bit b k : 0 <= k -> num [Z.testbit b k] = (b / 2 ^ k) mod 2.
Proof. intros K. change (num [Z.testbit b k]) with (2 * 0 + Z.b2z (Z.testbit b k)). rewrite Z.testbit_spec' by exact K. lia. Qed.
Lemma num_low n b : num (nbits n b) = b mod 2 ^ Z.of_nat n. Proof. apply num_nbits. Qed.
(** the value of one header field *)
Ltac field_of HR nm c :=
  let v := fresh "v" in let t := fresh "t" in let G := fresh "G" in let D := fresh "D" in let R := fresh "R" in
  destruct (HR nm c eq_refl) as (v & t & G & D & R); apply some_inj in D; subst t; inversion R; subst v; clear R.

Lemma zip_fields f0 f1 sq se de d : bytes_ok [f0; f1; sq; se; de] ->
  header_reads (s_attrs m_Zip_ZipPacket) zip_header [f0; f1; sq; se; de] d ->
  aget "ackRequest" d = Some (VF (f0 / 128)) /\ aget "ackResponse" d = Some (VF (f0 / 64 mod 2)) /\
  aget "nackResponse" d = Some (VF (f0 / 32 mod 2)) /\ aget "nackWaiting" d = Some (VF (f0 / 16 mod 2)) /\
  aget "nackQueueFull" d = Some (VF (f0 / 8 mod 2)) /\ aget "nackOptionError" d = Some (VF (f0 / 4 mod 2)) /\
  aget "headerExtIncluded" d = Some (VF (f1 / 128)) /\ aget "zwCmdIncluded" d = Some (VF (f1 / 64 mod 2)) /\
  aget "moreInformation" d = Some (VF (f1 / 32 mod 2)) /\ aget "secureOrigin" d = Some (VF (f1 / 16 mod 2)) /\
  aget "seqNo" d = Some (VI false 1 sq) /\ aget "sourceEP" d = Some (VU 7 (se mod 128)) /\ aget "destEP" d = Some (VU 7 (de mod 128)).
Proof.
  intros B (cs & CU & HR). unfold bytes_ok in B. rewrite !Forall_cons_iff in B. destruct B as (B0 & B1 & B2 & B3 & B4 & _).
  cbv -[Z.testbit] in CU. apply some_inj in CU. subst cs.
  field_of HR "ackRequest" [Z.testbit f0 7]. field_of HR "ackResponse" [Z.testbit f0 6]. field_of HR "nackResponse" [Z.testbit f0 5].
  field_of HR "nackWaiting" [Z.testbit f0 4]. field_of HR "nackQueueFull" [Z.testbit f0 3]. field_of HR "nackOptionError" [Z.testbit f0 2].
  field_of HR "headerExtIncluded" [Z.testbit f1 7]. field_of HR "zwCmdIncluded" [Z.testbit f1 6]. field_of HR "moreInformation" [Z.testbit f1 5].
  field_of HR "secureOrigin" [Z.testbit f1 4]. field_of HR "seqNo" (nbits 8 sq). field_of HR "sourceEP" (nbits 7 se). field_of HR "destEP" (nbits 7 de).
  rewrite !num_bit in * by lia. rewrite !num_low in *. change (2 ^ Z.of_nat 8) with 256 in *. change (2 ^ Z.of_nat 7) with 128 in *.
  change (2 ^ 7) with 128 in *. change (2 ^ 6) with 64 in *. change (2 ^ 5) with 32 in *. change (2 ^ 4) with 16 in *. change (2 ^ 3) with 8 in *. change (2 ^ 2) with 4 in *.
  rewrite (Z.mod_small (f0 / 128) 2) in * by lia. rewrite (Z.mod_small (f1 / 128) 2) in * by lia. rewrite (Z.mod_small sq 256) in * by lia.
  repeat (split; [assumption|]). assumption.
Qed.

(** attributes parsed later do not touch earlier ones *)
Lemma setattr_other all n v d d' u m : setattr all n v d = Ok (d', u) -> m <> n -> aget m d' = aget m d.
Proof.
  unfold setattr. intros E N. destruct (find_attr n all); [|injection E as <- _; reflexivity].
  destruct (setattr_coerce (a_ty a) v); [|discriminate]. cbn [bind] in E. destruct (aget n d).
  - destruct (py_eq v0 a0) as [[]|]; [injection E as <- _; reflexivity| |discriminate]. injection E as <- _. apply aget_aset_other. exact N.
  - injection E as <- _. apply aget_aset_other. exact N.
Qed.
Lemma parse_keeps hk ds all : forall todo d r d' r' m, parse_attrs hk ds all todo d r = Ok (d', r') -> declared m todo = None -> aget m d' = aget m d.
Proof.
  induction todo as [|a todo IH]; intros d r d' r' m E D; cbn [parse_attrs] in E; [injection E as <- _; reflexivity|].
  cbn [declared] in D. destruct (String.eqb_spec m (a_name a)) as [|N]; [discriminate|].
  destruct (bytesLeft r =? 0); [injection E as <- _; reflexivity|].
  destruct (match a_parse a with Some h => hk h d r | None => ds (a_ty a) r end) as [[v q]|]; [|discriminate]. cbn [bind] in E.
  destruct (setattr all (a_name a) v d) as [[d1 u]|] eqn:S; [|discriminate]. cbn [bind] in E.
  rewrite (IH _ _ _ _ _ E D). eapply setattr_other; eassumption.
Qed.
Lemma zip_header_of f0 f1 sq se de rest m : bytes_ok (35 :: 2 :: [f0; f1; sq; se; de] ++ rest) ->
  decode (35 :: 2 :: [f0; f1; sq; se; de] ++ rest) = Ok m ->
  exists d, m = VObj (CMsg m_Zip_ZipPacket) d /\ header_reads (s_attrs m_Zip_ZipPacket) zip_header [f0; f1; sq; se; de] d.
Proof.
  intros B E. inversion B as [|? ? _ B']; subst. inversion B' as [|? ? _ B'']; subst. apply (proj1 (bytes_ok_app [f0; f1; sq; se; de] rest)) in B'' as [B1 B2].
  destruct (frame_prefix m_Zip_ZipPacket zip_header _ _ rest zip_in zip_attrs eq_refl B1 B2 eq_refl) as (d & q & cs & f & CU & ST & DO & BQ & LQ & EF & EP).
  change (s_cls m_Zip_ZipPacket) with 35 in EP. change (s_cmd m_Zip_ZipPacket) with 2 in EP. rewrite E in EP. symmetry in EP.
  destruct (parse_attrs _ _ _ _ _ _) as [[d' r']|] eqn:P; [|discriminate]. cbn [bind] in EP. injection EP as <-. exists d'. split; [reflexivity|].
  destruct (stored_header _ _ _ _ _ CU ST) as (cs' & C' & HR). exists cs'. split; [exact C'|]. intros n c LP. destruct (HR n c LP) as (v & t & G & D & R).
  exists v, t. split; [|auto]. rewrite (parse_keeps _ _ _ _ _ _ _ _ n P); [exact G|].
  cbn [declared a_name]. destruct (String.eqb_spec n "headerExtension") as [->|]; [rewrite last_piece_declared in LP by reflexivity; discriminate|].
  destruct (String.eqb_spec n "command") as [->|]; [rewrite last_piece_declared in LP by reflexivity; discriminate|reflexivity].
Qed.

(** ** C18 *)
Lemma nbits_8_7 x : 0 <= x < 128 -> nbits 8 x = false :: nbits 7 x.
Proof. intros R. change (nbits 8 x) with (Z.testbit x 7 :: nbits 7 x). f_equal. rewrite Z.testbit_eqb by lia. rewrite Z.div_small by (change (2 ^ 7) with 128; lia). reflexivity. Qed.
Lemma flag_bits z : 0 <= z < 2 -> exists b, z = b2 b. Proof. intros R. exists (z =? 1). unfold b2. destruct (Z.eqb_spec z 1); lia. Qed.
Lemma response_ok d so sq a b ok w q o :
  aget "secureOrigin" d = Some (VF (b2 so)) -> aget "seqNo" d = Some (VI false 1 sq) -> aget "sourceEP" d = Some (VU 7 a) -> aget "destEP" d = Some (VU 7 b) ->
  0 <= sq < 256 -> 0 <= a < 128 -> 0 <= b < 128 ->
  exists d', zip_response (VObj (CMsg m_Zip_ZipPacket) d) ok w q o = Ok (VObj (CMsg m_Zip_ZipPacket) d') /\
    compose (VObj (CMsg m_Zip_ZipPacket) d') = Ok [35; 2; ack_flags ok w q o; 16 * b2 so; sq; b; a] /\
    aget "ackRequest" d' = Some (VF 0) /\ aget "ackResponse" d' = Some (VF (b2 ok)) /\ aget "nackResponse" d' = Some (VF (b2 (negb ok))) /\
    aget "nackWaiting" d' = Some (VF (b2 w)) /\ aget "nackQueueFull" d' = Some (VF (b2 q)) /\ aget "nackOptionError" d' = Some (VF (b2 o)) /\
    aget "headerExtIncluded" d' = Some (VF 0) /\ aget "zwCmdIncluded" d' = Some (VF 0) /\ aget "secureOrigin" d' = Some (VF (b2 so)) /\
    aget "seqNo" d' = Some (VI false 1 sq) /\ aget "sourceEP" d' = Some (VU 7 b) /\ aget "destEP" d' = Some (VU 7 a) /\
    aget "command" d' = Some (VObj CPure []).
Proof.
  intros G1 G2 G3 G4 H1 H2 H3.
  assert (E : zip_response (VObj (CMsg m_Zip_ZipPacket) d) ok w q o = Ok (VObj (CMsg m_Zip_ZipPacket)
    [("ackRequest", VF 0); ("ackResponse", VF (b2 ok)); ("nackResponse", VF (b2 (negb ok))); ("nackWaiting", VF (b2 w)); ("nackQueueFull", VF (b2 q));
     ("nackOptionError", VF (b2 o)); ("headerExtIncluded", VF 0); ("zwCmdIncluded", VF 0); ("moreInformation", VF 0); ("secureOrigin", VF (b2 so));
     ("seqNo", VI false 1 sq); ("sourceEP", VU 7 b); ("destEP", VU 7 a); ("command", VObj CPure [])])).
  { unfold zip_response. rewrite !getattr_spec. rewrite G1, G2, G3, G4. destruct ok, w, q, o, so; reflexivity. }
  eexists. split; [exact E|]. split; [|repeat split; reflexivity]. match goal with |- compose (VObj _ ?x) = _ => set (d' := x) end.
  assert (EN : encodes (VObj (CMsg m_Zip_ZipPacket) d') (nbits 8 (s_cls m_Zip_ZipPacket) ++ nbits 8 (s_cmd m_Zip_ZipPacket) ++
     ([false] ++ [ok] ++ [negb ok] ++ [w] ++ [q] ++ [o] ++ repeat false 2 ++ [false] ++ [false] ++ [false] ++ [so] ++ repeat false 4 ++
      nbits 8 sq ++ repeat false 1 ++ nbits 7 b ++ repeat false 1 ++ nbits 7 a ++ [] ++ [] ++ []))).
  { constructor; [apply zip_in|]. unfold d', b2. cbn [s_attrs m_Zip_ZipPacket].
    repeat (apply F_cons; [first [ eapply F_unset; [reflexivity|constructor]
                                 | eapply F_set; [reflexivity|reflexivity|apply (FB_flag false)]
                                 | eapply F_set; [reflexivity|reflexivity|apply (FB_flag _)]
                                 | eapply F_set; [reflexivity|reflexivity|apply (FB_int false 1); cbn; lia]
                                 | eapply F_set; [reflexivity|reflexivity|apply (FB_ub 7); cbn; lia]
                                 | eapply F_nocmd; [reflexivity|reflexivity|reflexivity|left; reflexivity] ]|]).
    apply F_nil. }
  destruct (proj1 compose_all _ _ EN) as (_ & bs & EC & BO & EB). rewrite EC. f_equal. apply bits_of_inj; [exact BO| |].
  - unfold ack_flags, b2. repeat (constructor; [destruct ok, w, q, o, so; cbn [negb]; lia|]). constructor.
  - rewrite EB. unfold bits_of. cbn [flat_map]. rewrite (nbits_8_7 a), (nbits_8_7 b) by assumption. cbn [app]. rewrite !app_nil_r.
    unfold ack_flags, b2. change (s_cls m_Zip_ZipPacket) with 35. change (s_cmd m_Zip_ZipPacket) with 2.
    destruct ok, w, q, o, so; cbn [negb]; repeat (rewrite <- app_assoc || cbn [app]); reflexivity.
Qed.
(** what the peer reads *)
Lemma zip_short_decode f0 f1 sq se de : bytes_ok [f0; f1; sq; se; de] ->
  exists d, decode [35; 2; f0; f1; sq; se; de] = Ok (VObj (CMsg m_Zip_ZipPacket) d) /\
    header_reads (s_attrs m_Zip_ZipPacket) zip_header [f0; f1; sq; se; de] d /\ aget "headerExtension" d = None /\ aget "command" d = None.
Proof.
  intros B. destruct (frame_prefix m_Zip_ZipPacket zip_header _ _ [] zip_in zip_attrs eq_refl B ltac:(constructor) eq_refl) as (d & q & cs & f & CU & ST & DO & BQ & LQ & EF & EP).
  rewrite parse_stop in EP by (rewrite at_left; reflexivity). cbn [bind app] in EP. exists d. split; [exact EP|].
  split; [exact (stored_header _ _ _ _ _ CU ST)|]. split; [exact (DO "headerExtension")|exact (DO "command")].
Qed.

Lemma ack_answers f0 f1 sq se de rest m ok w q o : bytes_ok (35 :: 2 :: [f0; f1; sq; se; de] ++ rest) ->
  decode (35 :: 2 :: [f0; f1; sq; se; de] ++ rest) = Ok m ->
  exists d, zip_response m ok w q o = Ok (VObj (CMsg m_Zip_ZipPacket) d) /\
    compose (VObj (CMsg m_Zip_ZipPacket) d) = Ok [35; 2; ack_flags ok w q o; 16 * (f1 / 16 mod 2); sq; de mod 128; se mod 128] /\
    aget "ackRequest" d = Some (VF 0) /\ aget "ackResponse" d = Some (VF (b2 ok)) /\ aget "nackResponse" d = Some (VF (b2 (negb ok))) /\
    aget "nackWaiting" d = Some (VF (b2 w)) /\ aget "nackQueueFull" d = Some (VF (b2 q)) /\ aget "nackOptionError" d = Some (VF (b2 o)) /\
    aget "headerExtIncluded" d = Some (VF 0) /\ aget "zwCmdIncluded" d = Some (VF 0) /\ aget "secureOrigin" d = Some (VF (f1 / 16 mod 2)) /\
    aget "seqNo" d = Some (VI false 1 sq) /\ aget "sourceEP" d = Some (VU 7 (de mod 128)) /\ aget "destEP" d = Some (VU 7 (se mod 128)) /\
    aget "command" d = Some (VObj CPure []).
Proof.
  intros B E. destruct (zip_header_of _ _ _ _ _ _ _ B E) as (d & -> & HR).
  assert (B5 : bytes_ok [f0; f1; sq; se; de]).
  { inversion B as [|? ? _ B']; subst. inversion B' as [|? ? _ B'']; subst. exact (proj1 (proj1 (bytes_ok_app [f0; f1; sq; se; de] rest) B'')). }
  destruct (zip_fields _ _ _ _ _ _ B5 HR) as (_ & _ & _ & _ & _ & _ & _ & _ & _ & SO & SQ & SE & DE).
  unfold bytes_ok in B5. rewrite !Forall_cons_iff in B5. destruct (flag_bits (f1 / 16 mod 2)) as [so X]; [lia|]. rewrite X in *.
  apply (response_ok d so sq (se mod 128) (de mod 128) ok w q o SO SQ SE DE); lia.
Qed.
Lemma ack_read ok w q o (so : bool) sq a b : 0 <= sq < 256 -> 0 <= a < 128 -> 0 <= b < 128 ->
  exists d, decode [35; 2; ack_flags ok w q o; 16 * b2 so; sq; a; b] = Ok (VObj (CMsg m_Zip_ZipPacket) d) /\
    aget "ackRequest" d = Some (VF 0) /\ aget "ackResponse" d = Some (VF (b2 ok)) /\ aget "nackResponse" d = Some (VF (b2 (negb ok))) /\
    aget "nackWaiting" d = Some (VF (b2 w)) /\ aget "nackQueueFull" d = Some (VF (b2 q)) /\ aget "nackOptionError" d = Some (VF (b2 o)) /\
    aget "headerExtIncluded" d = Some (VF 0) /\ aget "zwCmdIncluded" d = Some (VF 0) /\ aget "secureOrigin" d = Some (VF (b2 so)) /\
    aget "seqNo" d = Some (VI false 1 sq) /\ aget "sourceEP" d = Some (VU 7 a) /\ aget "destEP" d = Some (VU 7 b) /\
    aget "headerExtension" d = None /\ aget "command" d = None.
Proof.
  intros HS HA HB. assert (B5 : bytes_ok [ack_flags ok w q o; 16 * b2 so; sq; a; b]).
  { unfold ack_flags, b2. repeat (constructor; [destruct ok, w, q, o, so; cbn [negb]; lia|]). constructor. }
  destruct (zip_short_decode _ _ _ _ _ B5) as (d & E & HR & G1 & G2). exists d. split; [exact E|].
  destruct (zip_fields _ _ _ _ _ _ B5 HR) as (F1 & F2 & F3 & F4 & F5 & F6 & F7 & F8 & _ & F9 & SQ & SE & DE).
  rewrite Z.mod_small in SE, DE by assumption. rewrite F1, F2, F3, F4, F5, F6, F7, F8, F9, SQ, SE, DE.
  destruct ok, w, q, o, so; repeat split; assumption || reflexivity.
Qed.

(** ** C17 for meters *)
Definition meter_pre : list attr := Eval cbv in firstn 3 (s_attrs m_Meter_Report).
Lemma meter_value h hdr m tl : bytes_ok (h :: hdr :: m ++ tl) -> zlen m = hdr mod 8 -> zlen tl <> 1 ->
  exists d, decode (50 :: 2 :: h :: hdr :: m ++ tl) = Ok (VObj (CMsg m_Meter_Report) d) /\
    aget "scale2" d = Some (VF (h / 128)) /\ aget "meterType" d = Some (VB 5 (h mod 32)) /\
    aget "meterValue" d = Some (VFloatT (snum (bits_of m)) (hdr / 32) (hdr mod 8) (hdr / 8 mod 4)) /\
    aget "deltaTime" d = match tl with a :: b :: _ => Some (VI false 2 (256 * a + b)) | _ => None end /\
    meter_scale (VObj (CMsg m_Meter_Report) d) = Ok (4 * (h / 128) + hdr / 8 mod 4).
Proof.
  intros B L LT. inversion B as [|? ? HH B']; subst. inversion B' as [|? ? HD B'']; subst. apply bytes_ok_app in B'' as [BM BT].
  assert (Hs : In m_Meter_Report registry) by in_reg.
  destruct (frame_prefix m_Meter_Report meter_pre [mkA "meterValue" TFloat None None; mkA "deltaTime" (TInt false 2) None None] [h] (hdr :: m ++ tl) Hs eq_refl eq_refl)
    as (d & q & cs & f & CU & ST & DO & BQ & LQ & EF & E).
  { constructor; [exact HH|constructor]. } { exact B'. } { reflexivity. }
  change (s_cls m_Meter_Report) with 50 in E. change (s_cmd m_Meter_Report) with 2 in E. cbn [app] in E.
  assert (HS : aget "scale2" d = Some (VF (h / 128)) /\ aget "meterType" d = Some (VB 5 (h mod 32))).
  { destruct (stored_header _ _ _ _ _ CU ST) as (cs' & CU' & HR). cbv -[Z.testbit] in CU'. apply some_inj in CU'. subst cs'.
    field_of HR "scale2" [Z.testbit h 7]. field_of HR "meterType" (nbits 5 h).
    rewrite num_bit in * by lia. rewrite num_low in *. change (2 ^ 7) with 128 in *. change (2 ^ Z.of_nat 5) with 32 in *. rewrite Z.mod_small in G by lia. auto. }
  destruct HS as [HS HT]. pose proof (DO "meterValue") as GM. cbn in GM. pose proof (DO "deltaTime") as GD. cbn in GD.
  set (mv := VFloatT (snum (bits_of m)) (hdr / 32) (hdr mod 8) (hdr / 8 mod 4)).
  erewrite parse_step in E; [| |cbn [a_parse a_ty ds2 ds0]; apply float_reads; assumption|].
  2:{ rewrite at_left. apply zpos. }
  2:{ apply (setattr_fresh _ _ TFloat _ mv); [reflexivity| |exact GM]. unfold setattr_coerce. cbn [isinst has_setstate construct_star]. rewrite from_bytes_s_snum by exact BM. reflexivity. }
  cbn [a_name] in E. set (d1 := aset "meterValue" mv d) in *.
  assert (D2 : exists d2, parse_attrs (hk2 (deserialize f)) (ds2 (deserialize f)) (s_attrs m_Meter_Report) [mkA "deltaTime" (TInt false 2) None None] d1 (at_ ((q ++ [hdr]) ++ m) tl) = Ok d2 /\
     (forall n, n <> "deltaTime" -> aget n (fst d2) = aget n d1) /\ aget "deltaTime" (fst d2) = match tl with a :: b :: _ => Some (VI false 2 (256 * a + b)) | _ => None end).
  { destruct tl as [|x [|y tl]].
    - rewrite parse_stop by (rewrite at_left; reflexivity). eexists. split; [reflexivity|]. cbn [fst]. split; [reflexivity|]. unfold d1. rewrite aget_aset_other by discriminate. exact GD.
    - exfalso. apply LT. reflexivity.
    - eexists. split.
      + erewrite parse_step; [|rewrite at_left; apply zpos| |].
        * cbn [parse_attrs]. reflexivity.
        * cbn [a_parse a_ty ds2 ds0]. change (x :: y :: tl) with ([x; y] ++ tl). rewrite (at_value _ [x; y] tl) by reflexivity. cbn [bind]. reflexivity.
        * apply (setattr_fresh _ _ (TInt false 2) _ (VI false 2 (from_bytes_u [x; y]))); [reflexivity|reflexivity|]. unfold d1. rewrite aget_aset_other by discriminate. exact GD.
      + cbn [fst a_name]. split; [intros n N; apply aget_aset_other; exact N|]. rewrite aget_aset_same. do 2 f_equal. unfold from_bytes_u. cbn [fold_left]. lia. }
  destruct D2 as ([d2 r2] & E2 & K & KD). cbn [fst] in *. rewrite E2 in E. cbn [bind] in E. exists d2.
  assert (X1 : aget "scale2" d2 = Some (VF (h / 128))) by (rewrite K by discriminate; unfold d1; rewrite aget_aset_other by discriminate; exact HS).
  assert (X2 : aget "meterType" d2 = Some (VB 5 (h mod 32))) by (rewrite K by discriminate; unfold d1; rewrite aget_aset_other by discriminate; exact HT).
  assert (X3 : aget "meterValue" d2 = Some mv) by (rewrite K by discriminate; unfold d1; rewrite aget_aset_same; reflexivity).
  split; [exact E|]. split; [exact X1|]. split; [exact X2|]. split; [exact X3|]. split; [exact KD|].
  unfold meter_scale. rewrite !getattr_spec, X1, X2, X3. unfold mv. cbn [truthy].
  assert (H4 : (if negb (h / 128 =? 0) then Z.lor (hdr / 8 mod 4) 4 else hdr / 8 mod 4) = 4 * (h / 128) + hdr / 8 mod 4).
  { destruct (Z.eqb_spec (h / 128) 0) as [Z0|Z1]; cbn [negb]; [lia|]. replace (h / 128) with 1 by lia.
    assert (0 <= hdr / 8 mod 4 < 4) as R by lia. assert (hdr / 8 mod 4 = 0 \/ hdr / 8 mod 4 = 1 \/ hdr / 8 mod 4 = 2 \/ hdr / 8 mod 4 = 3) as [-> |[-> |[-> | ->]]] by lia; reflexivity. }
  rewrite H4. assert ((0 <=? 4 * (h / 128) + hdr / 8 mod 4) && (4 * (h / 128) + hdr / 8 mod 4 <? 8) = true) as -> by lia.
  cbn [to_int]. destruct (h mod 32) as [|[]|]; reflexivity.
Qed.
Lemma meter_eof h hdr m : bytes_ok (h :: hdr :: m) -> zlen m < hdr mod 8 -> decode (50 :: 2 :: h :: hdr :: m) = Err EEOF.
Proof.
  intros B L. inversion B as [|? ? HH B']; subst. inversion B' as [|? ? HD B'']; subst.
  assert (Hs : In m_Meter_Report registry) by in_reg.
  destruct (frame_prefix m_Meter_Report meter_pre [mkA "meterValue" TFloat None None; mkA "deltaTime" (TInt false 2) None None] [h] (hdr :: m) Hs eq_refl eq_refl)
    as (d & q & cs & f & CU & ST & DO & BQ & LQ & EF & E).
  { constructor; [exact HH|constructor]. } { exact B'. } { reflexivity. }
  change (s_cls m_Meter_Report) with 50 in E. change (s_cmd m_Meter_Report) with 2 in E. cbn [app] in E. rewrite E.
  cbn [parse_attrs]. rewrite at_left. destruct (Z.eqb_spec (zlen (hdr :: m)) 0) as [X|_]; [elim (zpos _ _ X)|]. cbn [a_parse a_ty ds2 ds0].
  rewrite float_eof by assumption. reflexivity.
Qed.

(** ** C21 *)
Lemma cfg_flags (df : bool) sz : 0 <= sz < 8 -> nbits 8 (128 * b2 df + sz) = df :: repeat false 4 ++ nbits 3 sz.
Proof. intros R. assert (sz = 0 \/ sz = 1 \/ sz = 2 \/ sz = 3 \/ sz = 4 \/ sz = 5 \/ sz = 6 \/ sz = 7) as X by lia. destruct df; decompose [or] X; subst sz; reflexivity. Qed.
Lemma cfg_set p (df : bool) sz v : 0 <= p < 256 -> 0 <= sz < 8 ->
  exists d, new_msg m_Configuration_Set [("parameterNumber", VInt p); ("default", VBool df); ("size", VInt sz); ("value", VInt v)] = Ok (VObj (CMsg m_Configuration_Set) d) /\
   (forall bs, bytes_ok bs -> zlen bs = sz -> v = num (bits_of bs) -> compose (VObj (CMsg m_Configuration_Set) d) = Ok ([112; 4; p; 128 * b2 df + sz] ++ bs)) /\
   (v < 0 \/ 2 ^ (8 * sz) <= v -> compose (VObj (CMsg m_Configuration_Set) d) = Err EOverflow).
Proof.
  intros HP HS. set (d := [("parameterNumber", VI false 1 p); ("default", VF (b2 df)); ("size", VU 3 sz); ("value", VInt v)]).
  assert (Hs : In m_Configuration_Set registry) by in_reg.
  set (pre := firstn 4 (s_attrs m_Configuration_Set)). set (a := mkA "value" TPyInt None (Some HCfgSetValue)).
  assert (FP : fields d pre (nbits 8 p ++ [df] ++ repeat false 4 ++ nbits 3 sz ++ [])).
  { unfold pre. cbn [firstn s_attrs m_Configuration_Set].
    apply F_cons; [eapply F_set; [reflexivity|reflexivity|apply (FB_int false 1); cbn; lia]|].
    apply F_cons; [eapply F_set; [reflexivity|reflexivity|apply (FB_flag df)]|].
    apply F_cons; [eapply F_unset; [reflexivity|constructor]|].
    apply F_cons; [eapply F_set; [reflexivity|reflexivity|apply (FB_ub 3); cbn; lia]|]. apply F_nil. }
  exists d. split; [destruct df; reflexivity|]. split.
  - intros bs BB LB EV.
    assert (EN : encodes (VObj (CMsg m_Configuration_Set) d) (nbits 8 (s_cls m_Configuration_Set) ++ nbits 8 (s_cmd m_Configuration_Set) ++
      (nbits 8 p ++ [df] ++ repeat false 4 ++ nbits 3 sz ++ nbits (8 * Z.to_nat sz) v ++ []))).
    { constructor; [exact Hs|]. cbn [s_attrs m_Configuration_Set].
      apply F_cons; [eapply F_set; [reflexivity|reflexivity|apply (FB_int false 1); cbn; lia]|].
      apply F_cons; [eapply F_set; [reflexivity|reflexivity|apply (FB_flag df)]|].
      apply F_cons; [eapply F_unset; [reflexivity|constructor]|].
      apply F_cons; [eapply F_set; [reflexivity|reflexivity|apply (FB_ub 3); cbn; lia]|].
      apply F_cons; [|apply F_nil]. eapply F_cfg; try reflexivity; [lia|]. cbn [fits]. rewrite EV. pose proof (num_range (bits_of bs)) as X.
      rewrite bits_of_length in X. replace (Z.of_nat (8 * length bs)) with (8 * Z.of_nat (Z.to_nat sz)) in X by (unfold zlen in LB; lia). exact X. }
    destruct (proj1 compose_all _ _ EN) as (_ & bs' & EC & BO & EB). rewrite EC. f_equal. apply bits_of_inj; [exact BO| |].
    + apply bytes_ok_app. split; [|exact BB]. repeat (constructor; [unfold b2; destruct df; lia|]). constructor.
    + rewrite EB. unfold bits_of. rewrite flat_map_app. fold (bits_of bs). rewrite EV.
      replace (8 * Z.to_nat sz)%nat with (length (bits_of bs)) by (rewrite bits_of_length; unfold zlen in LB; lia). rewrite nbits_num.
      change (s_cls m_Configuration_Set) with 112. change (s_cmd m_Configuration_Set) with 4. cbn [flat_map].
      rewrite cfg_flags by exact HS. rewrite !app_nil_r. repeat (rewrite <- app_assoc || cbn [app]). reflexivity.
  - intros R. cbn [compose]. unfold compose_with. destruct (registry_cls_bytes _ Hs) as [C1 C2].
    destruct (addBytes_ok false 1 (s_cls m_Configuration_Set) new_writer [] winv_new eq_refl C1) as (w1 & E1 & W1 & S1).
    change (Z.of_nat 1) with 1 in E1. rewrite E1. cbn [bind].
    destruct (addBytes_ok false 1 (s_cmd m_Configuration_Set) w1 _ W1 S1 C2) as (w2 & E2 & W2 & S2).
    change (Z.of_nat 1) with 1 in E2. rewrite E2. cbn [bind].
    pose proof (registry_aligned _ Hs) as AL. rewrite <- S2 in AL. change (s_attrs m_Configuration_Set) with (pre ++ [a]) in AL.
    destruct (compose_prefix d pre [a] _ FP w2 _ AL W2) as (w3 & E3 & W3 & A3).
    change (s_attrs m_Configuration_Set) with (pre ++ [a]). rewrite compose_attrs_app, E3. cbn [bind compose_attrs]. unfold compose_attr.
    cbn [a a_name a_compose]. change (aget "value" d) with (Some (VInt v)). cbn iota. unfold run_chook. change (aget "value" d) with (Some (VInt v)). change (aget "size" d) with (Some (VU 3 sz)).
    cbn [is_int andb to_int bind]. unfold addBytes, to_bytes. destruct (Z.ltb_spec sz 0); [lia|].
    assert ((0 <=? v) && (v <? 2 ^ (8 * sz)) = false) as -> by lia. reflexivity.
Qed.
Lemma cfg_report p x bs tl : bytes_ok (p :: x :: bs ++ tl) -> zlen bs = x mod 8 -> bs ++ tl <> [] ->
  exists d, decode (112 :: 6 :: p :: x :: bs ++ tl) = Ok (VObj (CMsg m_Configuration_Report) d) /\
    aget "parameterNumber" d = Some (VI false 1 p) /\ aget "size" d = Some (VU 3 (x mod 8)) /\ aget "value" d = Some (VInt (num (bits_of bs))).
Proof.
  intros B L NE. inversion B as [|? ? HP B']; subst. inversion B' as [|? ? HX B'']; subst. pose proof B'' as B3. apply bytes_ok_app in B3 as [BB BT].
  assert (Hs : In m_Configuration_Report registry) by in_reg.
  set (pre := firstn 3 (s_attrs m_Configuration_Report)). set (a := mkA "value" TPyInt (Some HCfgValue) None).
  assert (BP : bytes_ok [p; x]) by (repeat (constructor; [assumption|]); constructor).
  assert (HF : forall d, header_reads (s_attrs m_Configuration_Report) pre [p; x] d -> aget "parameterNumber" d = Some (VI false 1 p) /\ aget "size" d = Some (VU 3 (x mod 8))).
  { intros d (cs & CU & HR). cbv -[Z.testbit] in CU. apply some_inj in CU. subst cs. field_of HR "parameterNumber" (nbits 8 p). field_of HR "size" (nbits 3 x).
    rewrite !num_low in *. change (2 ^ Z.of_nat 8) with 256 in *. change (2 ^ Z.of_nat 3) with 8 in *. rewrite Z.mod_small in G by lia. auto. }
  destruct (frame_last _ pre a [p; x] Hs eq_refl eq_refl eq_refl BP eq_refl (bs ++ tl) (fun v => v = VInt (num (bits_of bs))) B'' NE) as (d & v & E & HR & GV & ->).
  { intros d q f HR. destruct (HF d HR) as [_ GS]. unfold field_parse. cbn [a a_parse hk2]. unfold int_attr. rewrite GS. cbn [to_int bind].
    rewrite (at_value q bs tl) by exact L. cbn [bind]. eexists _, _, _. split; [reflexivity|]. split; [reflexivity|]. rewrite from_bytes_u_num by exact BB. reflexivity. }
  destruct (HF d HR). exists d. auto.
Qed.
Lemma cfg_report_eof p x bs : bytes_ok (p :: x :: bs) -> zlen bs < x mod 8 -> bs <> [] -> decode (112 :: 6 :: p :: x :: bs) = Err EEOF.
Proof.
  intros B L NE. inversion B as [|? ? HP B']; subst. inversion B' as [|? ? HX BB]; subst.
  assert (Hs : In m_Configuration_Report registry) by in_reg.
  set (pre := firstn 3 (s_attrs m_Configuration_Report)). set (a := mkA "value" TPyInt (Some HCfgValue) None).
  assert (BP : bytes_ok [p; x]) by (repeat (constructor; [assumption|]); constructor).
  apply (frame_last_err _ pre a [p; x] Hs eq_refl eq_refl BP eq_refl bs _ BB NE). intros d q f HR.
  assert (GS : aget "size" d = Some (VU 3 (x mod 8))).
  { destruct HR as (cs & CU & HR). cbv -[Z.testbit] in CU. apply some_inj in CU. subst cs. field_of HR "size" (nbits 3 x).
    rewrite !num_low in *. change (2 ^ Z.of_nat 3) with 8 in *. assumption. }
  unfold field_parse. cbn [a a_parse hk2]. unfold int_attr. rewrite GS. cbn [to_int bind]. rewrite at_value_eof by exact L. reflexivity.
Qed.

(** ** C22 *)
Lemma cmd_loop_reads tl : forall (prs : list (Z * Z)) f q i acc, (2 * length prs <= f)%nat ->
  exists r, agi_cmd_loop f i (i + 2 * zlen prs) acc (at_ q (flat_map pair_bytes prs ++ tl)) =
    Ok (acc ++ map pair_value prs, r).
Proof.
  induction prs as [|[c m] prs IH]; intros f q i acc F.
  - exists (at_ q tl). cbn [flat_map app map]. rewrite app_nil_r. destruct f; cbn [agi_cmd_loop]; [reflexivity|].
    change (zlen (@nil (Z * Z))) with 0. destruct (Z.ltb_spec i (i + 2 * 0)); [lia|reflexivity].
  - cbn [length] in F. destruct f as [|f]; [lia|]. cbn [agi_cmd_loop]. rewrite zlen_cons. pose proof (zlen_nonneg prs).
    destruct (Z.ltb_spec i (i + 2 * (1 + zlen prs))); [|lia]. cbn [flat_map app pair_bytes fst snd]. rewrite at_byte. cbn [bind]. rewrite at_byte. cbn [bind].
    replace (i + 2 * (1 + zlen prs)) with (i + 2 + 2 * zlen prs) by lia.
    destruct (IH f ((q ++ [c]) ++ [m]) (i + 2) (acc ++ [VList [VInt c; VInt m]]) ltac:(lia)) as (r & ->). exists r.
    rewrite <- app_assoc. reflexivity.
Qed.
Lemma cmd_loop_eof : forall (prs : list (Z * Z)) f q i acc x len, (2 * length prs < f)%nat -> i + 2 * zlen prs < len -> (length x < 2)%nat ->
  agi_cmd_loop f i len acc (at_ q (flat_map pair_bytes prs ++ x)) = Err EEOF.
Proof.
  induction prs as [|[c m] prs IH]; intros f q i acc x len F L X; (destruct f as [|f]; [cbn [length] in F; lia|]); cbn [agi_cmd_loop].
  - change (zlen (@nil (Z * Z))) with 0 in L. destruct (Z.ltb_spec i len); [|lia]. cbn [flat_map app]. destruct x as [|y [|z x]].
    + rewrite at_byte_eof. reflexivity.
    + rewrite at_byte. cbn [bind]. rewrite at_byte_eof. reflexivity.
    + cbn [length] in X. lia.
  - rewrite zlen_cons in L. pose proof (zlen_nonneg prs). destruct (Z.ltb_spec i len); [|lia]. cbn [flat_map app pair_bytes fst snd]. rewrite at_byte. cbn [bind]. rewrite at_byte. cbn [bind].
    apply IH; [cbn [length] in F; lia|lia|exact X].
Qed.
Lemma command_list g prs tl : 0 <= g < 256 -> 2 * zlen prs < 256 -> bytes_ok (flat_map pair_bytes prs ++ tl) ->
  exists d, decode (89 :: 6 :: g :: 2 * zlen prs :: flat_map pair_bytes prs ++ tl) = Ok (VObj (CMsg m_AssociationGrpInfo_GroupCommandListReport) d) /\
    aget "groupingIdentifier" d = Some (VI false 1 g) /\ aget "commandClass" d = Some (VList (map pair_value prs)).
Proof.
  intros HG LP BP. assert (Hs : In m_AssociationGrpInfo_GroupCommandListReport registry) by in_reg.
  set (pre := firstn 1 (s_attrs m_AssociationGrpInfo_GroupCommandListReport)). set (a := mkA "commandClass" TList (Some HAgiCmdList) None).
  pose proof (zlen_nonneg prs).
  destruct (frame_last _ pre a [g] Hs eq_refl eq_refl eq_refl ltac:(constructor; [exact HG|constructor]) eq_refl (2 * zlen prs :: flat_map pair_bytes prs ++ tl)
    (fun v => v = VList (map pair_value prs))) as (d & v & E & HR & GV & ->).
  { constructor; [lia|exact BP]. } { discriminate. }
  { intros d q f _. unfold field_parse. cbn [a a_parse hk2]. rewrite at_byte. cbn [bind].
    destruct (cmd_loop_reads tl prs (Z.to_nat (2 * zlen prs)) (q ++ [2 * zlen prs]) 0 []) as (r & E); [unfold zlen; lia|].
    rewrite Z.add_0_l in E. rewrite E. cbn [bind app]. eexists _, _, _. split; [reflexivity|]. split; reflexivity. }
  exists d. split; [exact E|]. split; [|exact GV]. destruct HR as (cs & CU & HR). cbv -[Z.testbit] in CU. apply some_inj in CU. subst cs.
  field_of HR "groupingIdentifier" (nbits 8 g). rewrite num_low in *. change (2 ^ Z.of_nat 8) with 256 in *. rewrite Z.mod_small in G by lia. exact G.
Qed.
Lemma command_list_eof g prs x len : 0 <= g < 256 -> 0 <= len < 256 -> 2 * zlen prs < len -> (length x < 2)%nat -> bytes_ok (flat_map pair_bytes prs ++ x) ->
  decode (89 :: 6 :: g :: len :: flat_map pair_bytes prs ++ x) = Err EEOF.
Proof.
  intros HG HL LP LX BP. assert (Hs : In m_AssociationGrpInfo_GroupCommandListReport registry) by in_reg.
  set (pre := firstn 1 (s_attrs m_AssociationGrpInfo_GroupCommandListReport)). set (a := mkA "commandClass" TList (Some HAgiCmdList) None).
  apply (frame_last_err _ pre a [g] Hs eq_refl eq_refl ltac:(constructor; [exact HG|constructor]) eq_refl (len :: flat_map pair_bytes prs ++ x)); [constructor; [lia|exact BP]|discriminate|].
  intros d q f _. unfold field_parse. cbn [a a_parse hk2]. rewrite at_byte. cbn [bind]. rewrite cmd_loop_eof; [reflexivity|unfold zlen in *; lia|lia|exact LX].
Qed.

Lemma group_parse g q tl : group_ok g -> exists v, parse_sub CGroupInfo (at_ q (group_bytes g ++ tl)) = Ok (v, at_ (q ++ group_bytes g) tl) /\ group_reads g v.
Proof.
  destruct g as [[[[id mode] prof] rs] ev]. cbn [group_ok group_bytes group_reads]. unfold byte. intros H. unfold parse_sub. cbn [class_attrs].
  unfold sub_AssociationGrpInfo_GroupInfoGroupType at 2. cbn [app].
  assert (U2 : forall q x y bs, ds0 (TInt false 2) (at_ q (x :: y :: bs)) = Ok (VI false 2 (256 * x + y), at_ (q ++ [x; y]) bs)).
  { intros q0 x y bs. cbn [ds0]. change (x :: y :: bs) with ([x; y] ++ bs). rewrite (at_value q0 [x; y] bs) by reflexivity. cbn [bind]. do 3 f_equal. unfold from_bytes, from_bytes_u. cbn [fold_left]. lia. }
  erewrite parse_step; [|rewrite at_left; apply zpos|apply at_ds_u8|reflexivity].
  erewrite parse_step; [|rewrite at_left; apply zpos|apply at_ds_u8|reflexivity].
  erewrite parse_step; [|rewrite at_left; apply zpos|apply U2|reflexivity].
  erewrite parse_step; [|rewrite at_left; apply zpos|cbn [a_parse a_ty ds0]; rewrite <- mid_0, mid_bits by lia; cbn [bind]; rewrite mid_8; reflexivity|reflexivity].
  erewrite parse_step; [|rewrite at_left; apply zpos|apply U2|reflexivity].
  cbn [parse_attrs bind]. eexists. split; [rewrite <- !app_assoc; reflexivity|]. eexists. split; [reflexivity|]. cbn [a_name].
  replace (256 * (prof / 256) + prof mod 256) with prof by lia. replace (256 * (ev / 256) + ev mod 256) with ev by lia. repeat split; reflexivity.
Qed.
Lemma groups_loop_reads tl : forall gs q acc, Forall group_ok gs ->
  exists vs r, agi_groups_loop (length gs) acc (at_ q (flat_map group_bytes gs ++ tl)) = Ok (acc ++ vs, r) /\ Forall2 group_reads gs vs.
Proof.
  induction gs as [|g gs IH]; intros q acc F; cbn [length agi_groups_loop flat_map].
  - exists [], (at_ q tl). rewrite app_nil_r. split; [reflexivity|constructor].
  - inversion F; subst. rewrite <- app_assoc. destruct (group_parse g q (flat_map group_bytes gs ++ tl) ltac:(assumption)) as (v & -> & RV). cbn [bind].
    destruct (IH (q ++ group_bytes g) (acc ++ [v]) ltac:(assumption)) as (vs & r & -> & F2). exists (v :: vs), r. rewrite <- app_assoc. split; [reflexivity|]. constructor; assumption.
Qed.
Lemma group_info h gs tl : 0 <= h < 256 -> h mod 64 = zlen gs -> gs <> [] -> Forall group_ok gs -> bytes_ok tl ->
  exists d vs, decode (89 :: 4 :: h :: flat_map group_bytes gs ++ tl) = Ok (VObj (CMsg m_AssociationGrpInfo_GroupInfoReport) d) /\
    aget "groupCount" d = Some (VB 6 (h mod 64)) /\ aget "groups" d = Some (VList vs) /\ Forall2 group_reads gs vs.
Proof.
  intros HH LG NE F BT. assert (Hs : In m_AssociationGrpInfo_GroupInfoReport registry) by in_reg.
  set (pre := firstn 3 (s_attrs m_AssociationGrpInfo_GroupInfoReport)). set (a := mkA "groups" TList (Some HAgiGroups) None).
  assert (HF : forall d, header_reads (s_attrs m_AssociationGrpInfo_GroupInfoReport) pre [h] d -> aget "groupCount" d = Some (VB 6 (h mod 64))).
  { intros d (cs & CU & HR). cbv -[Z.testbit] in CU. apply some_inj in CU. subst cs. field_of HR "groupCount" (nbits 6 h). rewrite num_low in *. change (2 ^ Z.of_nat 6) with 64 in *. assumption. }
  destruct (frame_last _ pre a [h] Hs eq_refl eq_refl eq_refl ltac:(constructor; [exact HH|constructor]) eq_refl (flat_map group_bytes gs ++ tl)
    (fun v => exists vs, v = VList vs /\ Forall2 group_reads gs vs)) as (d & v & E & HR & GV & vs & -> & F2).
  { apply bytes_ok_app. split; [|exact BT]. clear - F. induction F as [|g gs OK F IH]; cbn [flat_map]; [constructor|]. apply bytes_ok_app. split; [|exact IH].
    destruct g as [[[[id mode] prof] rs] ev]. cbn [group_ok] in OK. unfold byte in OK. cbn [group_bytes]. repeat (constructor; [lia|]). constructor. }
  { destruct gs as [|g gs]; [contradiction|]. cbn [flat_map]. destruct g as [[[[id mode] prof] rs] ev]. discriminate. }
  { intros d q f HR. pose proof (HF d HR) as GC. unfold field_parse. cbn [a a_parse hk2]. unfold int_attr. rewrite GC. cbn [to_int bind].
    replace (Z.to_nat (h mod 64)) with (length gs) by (unfold zlen in LG; lia).
    destruct (groups_loop_reads tl gs q [] F) as (vs & r & -> & F2). cbn [bind app]. eexists _, _, _. split; [reflexivity|]. split; [reflexivity|]. eauto. }
  exists d, vs. split; [exact E|]. split; [apply HF; exact HR|]. auto.
Qed.

(** ** C16 *)
Lemma py_int_err g e : py_int g = Err e -> e = EValue.
Proof.
  unfold py_int. intros E.
  repeat match type of E with
  | match ?x with _ => _ end = _ => destruct x; try discriminate; try (injection E as <-; reflexivity)
  end.
Qed.
