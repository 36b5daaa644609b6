(** Proofs for C131. *)
From Coq Require Import String ZArith List Bool Lia ZifyBool ZifyNat.
From Verif Require Import Py BitStream Schema Registry Codec SpecBits BitLemmas ReaderLemmas SpecDecode SpecTotal
  EncodeProofs DecodeLemmas DecodeProofs CodecProofs ParseRel TotalProofs ByteReader SpecFields HeaderProofs FieldProofs ReportProofs.
Import ListNotations.
Open Scope list_scope.
Open Scope string_scope.
Open Scope list_scope.
Open Scope Z_scope.
Local Ltac Zify.zify_post_hook ::= Z.div_mod_to_equations.
Local Notation m_get := m_Supervision_Get.

Lemma get_in : In m_get registry.
Proof. vm_compute. repeat first [left; reflexivity|right]. Qed.
Definition get_attr := mkA "command" TMsg (Some HSupCommand) None.
Definition get_pre : list attr := Eval cbv in firstn 3 (s_attrs m_get).

Lemma get_fields x d : 0 <= x < 256 -> header_reads (s_attrs m_get) get_pre [x] d ->
  aget "statusUpdates" d = Some (VF (x / 128)) /\ aget "sessionID" d = Some (VB 6 (x mod 64)).
Proof.
  intros X (cs & CU & HR). cbv -[Z.testbit] in CU. apply some_inj in CU. subst cs.
  field_of HR "statusUpdates" [Z.testbit x 7]. field_of HR "sessionID" (nbits 6 x).
  rewrite !num_low in *. rewrite !num_bit in * by lia. change (2 ^ Z.of_nat 6) with 64 in *. change (2 ^ 7) with 128 in *.
  rewrite (Z.mod_small (x / 128)) in * by lia. auto.
Qed.

Lemma get_decodes x cmd tl : 0 <= x < 256 -> bytes_ok cmd -> zlen cmd < 256 -> bytes_ok tl ->
  match decode cmd with
  | Err e => decode (108 :: 1 :: x :: zlen cmd :: cmd ++ tl) = Err e
  | Ok c => exists d, decode (108 :: 1 :: x :: zlen cmd :: cmd ++ tl) = Ok (VObj (CMsg m_get) d) /\
      aget "statusUpdates" d = Some (VF (x / 128)) /\ aget "sessionID" d = Some (VB 6 (x mod 64)) /\ aget "command" d = Some c
  end.
Proof.
  intros X B L BT. assert (BX : bytes_ok [x]) by (constructor; [exact X|constructor]).
  assert (B2 : bytes_ok (zlen cmd :: cmd ++ tl)).
  { constructor; [pose proof (zlen_nonneg cmd); lia|]. apply bytes_ok_app. split; assumption. }
  destruct (frame_prefix m_get get_pre [get_attr] [x] (zlen cmd :: cmd ++ tl) get_in eq_refl eq_refl BX B2 eq_refl) as (d & q & cs & f & CU & ST & DO & BQ & LQ & EF & E).
  change (s_cls m_get) with 108 in E. change (s_cmd m_get) with 1 in E. cbn [app] in E.
  pose proof (stored_header _ _ _ _ _ CU ST) as HR.
  pose proof (deserialize_at [] cmd f B) as DA.
  specialize (DA ltac:(rewrite EF; cbn [app length]; rewrite app_length; unfold zlen; lia)). rewrite <- new_at in DA.
  assert (HK : forall x, hk2 (deserialize f) HSupCommand d (at_ q (zlen cmd :: cmd ++ tl)) = x ->
    x = do (c, _) <- deserialize f (new_reader cmd); Ok (c, at_ ((q ++ [zlen cmd]) ++ cmd) tl)).
  { intros y <-. cbn [hk2]. rewrite at_byte. cbn [bind]. rewrite (at_value _ cmd tl _ eq_refl). reflexivity. }
  specialize (HK _ eq_refl). rewrite E. clear E. cbn [parse_attrs]. rewrite at_left.
  destruct (Z.eqb_spec (zlen (zlen cmd :: cmd ++ tl)) 0) as [Y|_]; [elim (zpos _ _ Y)|]. cbn [a_parse get_attr].
  rewrite HK. destruct (decode cmd) as [c|e].
  - destruct DA as ((r & ->) & IM & _). cbn [bind].
    assert (ES : setattr (s_attrs m_get) (a_name get_attr) c d = Ok (aset "command" c d, Some c)).
    { apply (setattr_fresh _ _ TMsg _ c); [reflexivity| |exact (DO "command")]. unfold setattr_coerce. unfold is_message in IM. rewrite IM. reflexivity. }
    fold get_attr. rewrite ES. cbn [bind]. eexists. split; [reflexivity|].
    assert (HR' : header_reads (s_attrs m_get) get_pre [x] (aset "command" c d)).
    { apply header_aset; [exact HR|]. intros c0 cs' _. rewrite last_piece_declared by reflexivity. discriminate. }
    destruct (get_fields x _ X HR') as [G1 G2]. split; [exact G1|]. split; [exact G2|]. apply aget_aset_same.
  - destruct DA as (-> & _). reflexivity.
Qed.

Local Notation m_nf := m_Mailbox_NodeFailing.
Lemma nf_in : In m_nf registry.
Proof. vm_compute. repeat first [left; reflexivity|right]. Qed.
Lemma nf_decodes pad h tl : bytes_ok pad -> 0 <= h < 256 -> bytes_ok tl -> (length pad = 0%nat /\ length tl <> 15%nat) \/ (length pad = 15%nat /\ tl = []) ->
  exists d, decode (s_cls m_nf :: s_cmd m_nf :: pad ++ h :: tl) = Ok (VObj (CMsg m_nf) d) /\ aget "queueHandle" d = Some (VI false 1 h).
Proof.
  intros BP H BT HC. assert (B2 : bytes_ok (pad ++ h :: tl)) by (apply bytes_ok_app; split; [assumption|constructor; assumption]).
  destruct (frame_prefix m_nf [] (s_attrs m_nf) [] (pad ++ h :: tl) nf_in eq_refl eq_refl ltac:(constructor) B2 eq_refl) as (d & q & cs & f & CU & ST & DO & BQ & LQ & EF & E).
  cbn [app] in E. rewrite E. clear E. unfold m_nf at 2. cbn [s_attrs].
  assert (HK : exists r, hk2 (deserialize f) HNodeFailing d (at_ q (pad ++ h :: tl)) = Ok (VInt h, r)).
  { cbn [hk2]. rewrite at_left. destruct HC as [[HP HT]|[HP ->]].
    - destruct pad; [|discriminate HP]. cbn [app]. destruct (Z.eqb_spec (zlen (h :: tl)) 16) as [Y|_]; [unfold zlen in Y; cbn [length] in Y; lia|].
      rewrite at_byte. cbn [bind]. eauto.
    - assert (zlen (pad ++ [h]) = 16) as -> by (unfold zlen; rewrite app_length; cbn [length]; lia). cbn [Z.eqb Pos.eqb].
      replace (advance (8 * 15) (at_ q (pad ++ [h]))) with (at_ (q ++ pad) [h]).
      + rewrite at_byte. cbn [bind]. eauto.
      + unfold advance, at_. cbn [r_val r_pos]. rewrite <- app_assoc. f_equal. rewrite zlen_app. unfold zlen at 2. lia. }
  destruct HK as (r & HK). erewrite parse_step; [| |exact HK|].
  2:{ rewrite at_left. unfold zlen. rewrite app_length. cbn [length]. lia. }
  2:{ apply (setattr_fresh _ _ (TInt false 1) _ (VI false 1 h)); [reflexivity| |exact (DO "queueHandle")]. reflexivity. }
  cbn [parse_attrs bind]. eexists. split; [reflexivity|]. apply aget_aset_same.
Qed.
Lemma get_same (u : bool) rs se cmd tl : 0 <= rs < 2 -> 0 <= se < 64 -> bytes_ok cmd -> zlen cmd < 256 -> bytes_ok tl ->
  match decode cmd with
  | Err e => decode (108 :: 1 :: ((if u then 128 else 0) + 64 * rs + se) :: zlen cmd :: cmd ++ tl) = Err e
  | Ok c => exists d, decode (108 :: 1 :: ((if u then 128 else 0) + 64 * rs + se) :: zlen cmd :: cmd ++ tl) = Ok (VObj (CMsg m_get) d) /\
      aget "statusUpdates" d = Some (VF (if u then 1 else 0)) /\ aget "sessionID" d = Some (VB 6 se) /\ aget "command" d = Some c
  end.
Proof.
  intros R S B L BT. set (x := (if u then 128 else 0) + 64 * rs + se).
  assert (X : 0 <= x < 256) by (unfold x; destruct u; lia).
  pose proof (get_decodes x cmd tl X B L BT) as G.
  replace (x / 128) with (if u then 1 else 0) in G by (unfold x; destruct u; lia).
  replace (x mod 64) with se in G by (unfold x; destruct u; lia). exact G.
Qed.
Lemma nf_short h : 0 <= h < 256 -> exists d, decode [105; 6; h] = Ok (VObj (CMsg m_nf) d) /\ aget "queueHandle" d = Some (VI false 1 h).
Proof. intros H. apply (nf_decodes [] h []); [constructor|exact H|constructor|]. left. split; [reflexivity|discriminate]. Qed.
Lemma nf_long pad h : bytes_ok pad -> length pad = 15%nat -> 0 <= h < 256 ->
  exists d, decode (105 :: 6 :: pad ++ [h]) = Ok (VObj (CMsg m_nf) d) /\ aget "queueHandle" d = Some (VI false 1 h).
Proof. intros B L H. apply (nf_decodes pad h []); [exact B|exact H|constructor|]. right. split; [exact L|reflexivity]. Qed.
Lemma get_cut x n rest : 0 <= x < 256 -> 0 <= n < 256 -> bytes_ok rest -> zlen rest < n -> decode (108 :: 1 :: x :: n :: rest) = Err EEOF.
Proof.
  intros X N B L. assert (BX : bytes_ok [x]) by (constructor; [exact X|constructor]).
  assert (B2 : bytes_ok (n :: rest)) by (constructor; assumption).
  destruct (frame_prefix m_get get_pre [get_attr] [x] (n :: rest) get_in eq_refl eq_refl BX B2 eq_refl) as (d & q & cs & f & CU & ST & DO & BQ & LQ & EF & E).
  change (s_cls m_get) with 108 in E. change (s_cmd m_get) with 1 in E. cbn [app] in E. rewrite E. clear E. cbn [parse_attrs]. rewrite at_left.
  destruct (Z.eqb_spec (zlen (n :: rest)) 0) as [Y|_]; [elim (zpos _ _ Y)|]. cbn [a_parse get_attr hk2]. rewrite at_byte. cbn [bind].
  rewrite at_value_eof by exact L. reflexivity.
Qed.
