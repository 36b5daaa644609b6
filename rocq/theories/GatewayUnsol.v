(** Unsolicited packets (C45). *)
From Coq Require Import String ZArith List Bool Lia.
From Verif Require Import Py BitStream Schema Registry Codec Waiter Conn SpecConn BitLemmas DecodeProofs HeaderProofs ReportProofs Gateway SpecGateway GatewayProofs SpecFields.
Import ListNotations.
Open Scope list_scope.
Open Scope string_scope.
Open Scope list_scope.
Open Scope Z_scope.

Lemma from_listed a nodes n : In (n, VIPv6 a) nodes -> (forall n', In (n', VIPv6 a) nodes -> n' = n) -> from_ip a nodes = Some n.
Proof.
  intros I U. unfold from_ip. destruct (find _ nodes) as [[n' v]|] eqn:F.
  - apply find_some in F as [F1 F2]. cbn in F2. destruct v; try discriminate. apply Z.eqb_eq in F2. subst. rewrite (U n' F1). reflexivity.
  - pose proof (find_none _ _ F _ I) as N. cbn in N. rewrite Z.eqb_refl in N. discriminate.
Qed.
Lemma from_unlisted a nodes : (forall n, ~ In (n, VIPv6 a) nodes) -> from_ip a nodes = None.
Proof.
  intros U. unfold from_ip. destruct (find _ nodes) as [[n' v]|] eqn:F; [|reflexivity].
  apply find_some in F as [F1 F2]. cbn in F2. destruct v; try discriminate. apply Z.eqb_eq in F2. subst. destruct (U n' F1).
Qed.
Lemma bytes_check bs : bytes_ok bs -> forallb is_byte bs = true.
Proof. intros B. apply forallb_forall. intros x J. unfold bytes_ok in B. rewrite Forall_forall in B. specialize (B x J). unfold is_byte. cbn in B. lia. Qed.

Section Unsol.
Variable ord : list Z -> list Z.
Lemma told s f0 f1 sq se de rest m a : let bs := 35 :: 2 :: [f0; f1; sq; se; de] ++ rest in
  bytes_ok bs -> decode bs = Ok m -> is_msg m_NetworkManagementProxy_NodeListReport (getattr m "command") = false ->
  (forall n n', listed s n a -> listed s n' a -> n = n') ->
  exists os, gstep ord s (GUnsol bs (Some a)) = Some (s, GPacket bs (Some a) :: os) /\
    (forall n, listed s n a -> os = (if 128 <=? f0 then [GReply [35; 2; 64; 16 * (f1 / 16 mod 2); sq; de mod 128; se mod 128] a] else []) ++
                                    [GTold None n (VU 7 (se mod 128)) (getattr m "command") (getattr m "headerExtension")]) /\
    ((forall n, ~ listed s n a) -> os = [GLost None (getattr m "command")]).
Proof.
  intros bs B E NL U. destruct (zip_header_of _ _ _ _ _ _ _ B E) as (d & -> & HR).
  assert (B5 : bytes_ok [f0; f1; sq; se; de]).
  { subst bs. inversion B as [|? ? _ B']; subst. inversion B' as [|? ? _ B'']; subst. exact (proj1 (proj1 (bytes_ok_app [f0; f1; sq; se; de] rest) B'')). }
  destruct (zip_fields _ _ _ _ _ _ B5 HR) as (AR & _ & _ & _ & _ & _ & _ & _ & _ & _ & _ & SE & _).
  destruct (ack_answers f0 f1 sq se de rest _ true false false false B E) as (dr & ER & CR & _).
  unfold gstep. rewrite (bytes_check _ B). unfold unsolicited. rewrite E, NL.
  destruct (from_ip a (d_nodes (g_d s))) as [n|] eqn:F.
  - assert (L : listed s n a).
    { unfold from_ip in F. destruct (find _ _) as [[n' v]|] eqn:F'; [|discriminate]. apply find_some in F' as [F1 F2]. cbn in F2. destruct v; try discriminate. apply Z.eqb_eq in F2. injection F as ->. subst. exact F1. }
    assert (SEP : getattr (VObj (CMsg m_Zip_ZipPacket) d) "sourceEP" = VU 7 (se mod 128)) by (rewrite getattr_spec, SE; reflexivity).
    assert (ARQ : truthy (getattr (VObj (CMsg m_Zip_ZipPacket) d) "ackRequest") = (128 <=? f0)).
    { rewrite getattr_spec, AR. unfold bytes_ok in B5. apply Forall_inv in B5. cbn in B5. cbn [truthy]. destruct (Z.leb_spec 128 f0).
      - replace (f0 / 128) with 1 by (Z.to_euclidean_division_equations; lia). reflexivity.
      - rewrite Z.div_small by lia. reflexivity. }
    rewrite ARQ, SEP. change (is_msg m_Zip_ZipPacket (VObj (CMsg m_Zip_ZipPacket) d)) with true. rewrite ER. cbn [bind]. rewrite CR.
    exists ((if 128 <=? f0 then [GReply [35; 2; 64; 16 * (f1 / 16 mod 2); sq; de mod 128; se mod 128] a] else []) ++ [GTold None n (VU 7 (se mod 128)) (getattr (VObj (CMsg m_Zip_ZipPacket) d) "command") (getattr (VObj (CMsg m_Zip_ZipPacket) d) "headerExtension")]).
    split; [destruct (128 <=? f0); reflexivity|]. split; [intros n' L'; rewrite (U n' n L' L); reflexivity|intros N; destruct (N n L)].
  - eexists. split; [reflexivity|]. split; [|reflexivity].
    intros n L. rewrite (from_listed a _ n L) in F; [discriminate|]. intros n' L'. exact (U n' n L' L).
Qed.
(** nothing is announced for, nor sent to, an unknown address, whatever the packet *)
Lemma unknown s bs a s' os : gstep ord s (GUnsol bs (Some a)) = Some (s', os) -> (forall n, ~ listed s n a) ->
  (forall l n ep cmd fl, ~ In (GTold l n ep cmd fl) os) /\ (forall rs b, ~ In (GReply rs b) os).
Proof.
  intros G U. unfold gstep in G. destruct (forallb is_byte bs); [|discriminate]. destruct (unsolicited bs (Some a) (g_d s)) as [os1 o] eqn:EU. unfold unsolicited in EU.
  assert (Q : (forall l n ep cmd fl, ~ In (GTold l n ep cmd fl) os1) /\ (forall rs b, ~ In (GReply rs b) os1)).
  { destruct (decode bs) as [m|e]; [|injection EU as <- <-; split; intros; intros [J|[]]; discriminate]. rewrite (from_unlisted a (d_nodes (g_d s)) U) in EU.
    destruct (is_msg _ _); injection EU as <- <-; split; intros; cbn; intuition discriminate. }
  destruct o as [nodes|].
  - destruct (start ord (length (g_tasks s)) (GReport nodes) (g_d s)) as [[d2 os2] act] eqn:ES. rewrite (spawn_eq ord _ _ _ _ _ ES) in G. injection G as <- <-.
    pose proof (good_start ord (length (g_tasks s)) (GReport nodes) (g_d s)) as GS. rewrite ES in GS. apply moves_ours in GS. cbn in GS. rewrite Forall_forall in GS.
    split.
    + intros l n ep cmd fl [J|J]; [discriminate|]. apply in_app_or in J as [J|J]; [destruct (proj1 Q _ _ _ _ _ J)|]. destruct J as [J|J]; [discriminate|]. apply in_app_or in J as [J|J]; [specialize (GS _ J); discriminate GS||destruct GS|destruct act; cbn in J; intuition discriminate].
    + intros rs b [J|J]; [discriminate|]. apply in_app_or in J as [J|J]; [destruct (proj2 Q _ _ J)|]. destruct J as [J|J]; [discriminate|]. apply in_app_or in J as [J|J]; [specialize (GS _ J); discriminate GS||destruct GS|destruct act; cbn in J; intuition discriminate].
  - injection G as <- <-. split; [intros l n ep cmd fl [J|J]; [discriminate|exact (proj1 Q _ _ _ _ _ J)]|intros rs b [J|J]; [discriminate|exact (proj2 Q _ _ J)]].
Qed.
End Unsol.
