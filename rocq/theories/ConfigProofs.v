(** Proofs about configuration sessions (ConfigM.v, SpecConfig.v). *)
From Coq Require Import String ZArith List Bool Lia.
From Verif Require Import Py Schema Registry Codec SpecBits BitLemmas CmdClass SpecClass ConfigM SpecConfig.
From Verif Require SpecFields ReportProofs ClassProofs GrpInfoProofs.
Import ListNotations.
Open Scope list_scope.
Open Scope string_scope.
Open Scope list_scope.
Open Scope Z_scope.

Lemma bytes_for n : forall v, 0 <= v < 256 ^ Z.of_nat n -> exists bs, bytes_ok bs /\ length bs = n /\ from_bytes_u bs = v.
Proof.
  induction n as [|n IH]; intros v H; [exists []; split; [constructor|]; split; [reflexivity|]; cbn in *; lia|].
  rewrite Nat2Z.inj_succ, Z.pow_succ_r in H by lia. destruct (IH (v / 256)) as (bs & B & L & F).
  { split; [apply Z.div_pos; lia|apply Z.div_lt_upper_bound; [lia|exact (proj2 H)]]. }
  exists (bs ++ [v mod 256]). split; [apply Forall_app; split; [exact B|constructor; [apply Z.mod_pos_bound; lia|constructor]]|]. split; [rewrite app_length; cbn; lia|].
  rewrite from_bytes_u_app, F. change (zlen [v mod 256]) with 1. change (from_bytes_u [v mod 256]) with (0 * 256 + v mod 256). change (256 ^ 1) with 256. pose proof (Z.div_mod v 256). lia.
Qed.
Lemma value_from bs : value_of bs = from_bytes_u bs.
Proof. unfold value_of, from_bytes_u. generalize 0. induction bs as [|b bs IH]; intros a; cbn; [reflexivity|]. rewrite <- IH. f_equal. lia. Qed.

(** the device and the cache as numbers *)
Record agrees (ps : parameters) (m : memory) (dev seen : Z -> option Z) : Prop :=
  { ag_mem : memory_ok m; ag_dev : forall k, 0 <= k < 256 -> dev k = option_map value_of (m k); ag_seen : forall k, seen k = option_map fst (dget Z.eqb k ps) }.
Lemma play_step o ps m dev seen os : agrees ps m dev seen -> sane o ->
  exists r ps' m' dev' seen', play o (ps, m) = ((ps', m'), r) /\ agrees ps' m' dev' seen' /\ expected false (o :: os) dev seen = r :: expected false os dev' seen'.
Proof.
  intros [AM AD AS] S. destruct o as [k sz v|k c]; cbn [sane] in S.
  - destruct S as [K Z]. assert (Z' : 0 <= sz < 8) by lia. destruct (ReportProofs.cfg_set k false sz v K Z') as (d & N & W & O). unfold play, cfg_set. rewrite N. cbn [bind expected].
    destruct ((0 <=? v) && (v <? 256 ^ sz)) eqn:R.
    + apply andb_true_iff in R as [R1 R2]. apply Z.leb_le in R1. apply Z.ltb_lt in R2. destruct (bytes_for (Z.to_nat sz) v) as (bs & B & L & F); [rewrite Z2Nat.id by lia; lia|].
      rewrite (W bs B) by (unfold zlen; rewrite ?L, <- ?from_bytes_u_num by assumption; lia || congruence). cbn [List.app]. change (128 * SpecFields.b2 false + sz) with (0 + sz). rewrite Z.add_0_l.
      cbn [device]. replace (sz <? 128) with true by lia. replace (Z.of_nat (length bs) =? sz) with true by lia. cbn [andb fst].
      eexists _, _, _, (put dev k v), seen. split; [reflexivity|]. split; [|reflexivity]. split; [| |exact AS].
      * intros i b. destruct (i =? k); [|apply AM]. intros E. injection E as <-. split; [exact B|lia].
      * intros i I. unfold put. destruct (i =? k); [|apply AD, I]. cbn. rewrite value_from, F. reflexivity.
    + rewrite O. 2: { replace (2 ^ (8 * sz)) with (256 ^ sz) by (change 256 with (2 ^ 8); rewrite <- Z.pow_mul_r by lia; reflexivity). lia. }
      eexists _, _, _, dev, seen. split; [reflexivity|]. split; [split; assumption|reflexivity].
  - unfold play. cbn [expected]. rewrite andb_true_r.
    assert (ASK : exists q, compose q = Ok [112; 5; k] /\ new_msg m_Configuration_Get [("parameterNumber", VInt k)] = Ok q).
    { exists (VObj (CMsg m_Configuration_Get) [("parameterNumber", VI false 1 k)]). split; [|reflexivity].
      apply (ClassProofs.every_byte (fun k => compose (VObj (CMsg m_Configuration_Get) [("parameterNumber", VI false 1 k)])) (fun k => Ok [112; 5; k])); [vm_compute; reflexivity|exact S]. }
    destruct ASK as (q & CQ & NQ). unfold cfg_get. rewrite NQ.
    assert (OTHER : exists r ps' m' dev' seen', (let (qs, r) := ([q], do rep <- (do bs <- compose q; match snd (device bs m) with Some rep => decode rep | None => Err ETimeout end); Ok (getattr rep "value")) in
        (match qs with | q :: _ => match (do bs <- compose q; match snd (device bs m) with Some rep => decode rep | None => Err ETimeout end) with Ok rep => fst (cfg_report rep ps) | Err _ => ps end | [] => ps end, m, RGet r)) = ((ps', m'), r) /\ agrees ps' m' dev' seen' /\
        match dev k with Some v => RGet (Ok (VInt v)) :: expected false os dev (put seen k v) | None => RGet (Err ETimeout) :: expected false os dev seen end = r :: expected false os dev' seen').
    { rewrite CQ. cbn [bind device snd]. rewrite (AD k S). destruct (m k) as [bs|] eqn:M; cbn [option_map bind].
      - destruct (AM _ _ M) as [B L]. destruct (ReportProofs.cfg_report k (Z.of_nat (length bs)) bs []) as (d & D & E1 & E2 & E3).
        + rewrite app_nil_r. constructor; [exact S|]. constructor; [lia|exact B].
        + unfold zlen. rewrite Z.mod_small by lia. reflexivity.
        + rewrite app_nil_r. destruct bs; [cbn in L; lia|discriminate].
        + rewrite app_nil_r in D. rewrite D. cbn [bind]. rewrite <- from_bytes_u_num in E3 by exact B. rewrite <- value_from in E3.
          assert (RP : reports_parameter (VObj (CMsg m_Configuration_Report) d) k (value_of bs) (Z.of_nat (length bs) mod 8)) by (exists d; eauto 10).
          rewrite (ClassProofs.cfg_report_ok _ _ _ _ ps RP). cbn [fst getattr]. rewrite E3.
          eexists _, _, _, dev, (put seen k (value_of bs)). split; [reflexivity|]. split; [|reflexivity]. split; [exact AM|exact AD|].
          intros i. unfold put. rewrite GrpInfoProofs.dget_dset_Z. destruct (i =? k); [reflexivity|apply AS].
      - eexists _, _, _, dev, seen. split; [reflexivity|]. split; [split; assumption|reflexivity]. }
    destruct c; [|exact OTHER]. rewrite (AS k). destruct (dget Z.eqb k ps) as [[v s]|]; [|exact OTHER]. cbn [option_map fst].
    eexists _, _, _, dev, seen. split; [reflexivity|]. split; [split; assumption|reflexivity].
Qed.
Lemma sessions os : forall ps m dev seen, agrees ps m dev seen -> Forall sane os -> session os (ps, m) = expected false os dev seen.
Proof.
  induction os as [|o os IH]; intros ps m dev seen A F; [reflexivity|]. inversion F as [|? ? S F']; subst. destruct (play_step o ps m dev seen os A S) as (r & ps' & m' & dev' & seen' & P & A' & X).
  cbn [session]. rewrite P, X, (IH _ _ _ _ A' F'). reflexivity.
Qed.
Lemma session_result os m : memory_ok m -> Forall sane os -> session os ([], m) = expected false os (fun k => option_map value_of (m k)) (fun _ => None).
Proof. intros M. apply sessions. split; [exact M|reflexivity|reflexivity]. Qed.
Lemma fresh_same os : (forall k, ~ In (OpGet k true) os) -> forall dev seen seen', expected false os dev seen = expected true os dev seen'.
Proof.
  induction os as [|o os IH]; intros H dev seen seen'; [reflexivity|]. assert (H' : forall k, ~ In (OpGet k true) os) by (intros k J; apply (H k); right; exact J). specialize (IH H').
  destruct o as [k sz v|k [|]]; cbn [expected].
  - rewrite (IH dev seen seen'), (IH (put dev k v) seen seen'). reflexivity.
  - elim (H k). left. reflexivity.
  - cbn [andb]. destruct (dev k); f_equal; apply IH.
Qed.
