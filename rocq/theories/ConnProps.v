(** Proofs about sending and acknowledgements (C18, C23-C33). *)
From Coq Require Import String ZArith List Bool Lia ZifyBool ZifyNat.
From Verif Require Import Py BitStream Schema Registry Codec SpecBits BitLemmas SpecWire SpecDecode SpecRound SpecTotal DecodeProofs ParseRel TotalProofs ByteReader FieldProofs HeaderProofs ReportProofs SpecFields
  Waiter Conn SpecConn ConnLemmas ConnPacket ConnAck ConnInv ConnCases.
Import ListNotations.
Open Scope list_scope.
Open Scope string_scope.
Open Scope list_scope.
Open Scope Z_scope.


Lemma packet_frame_of s tr bs s' os : good s tr -> bytes_ok bs -> on_packet bs s = (s', os) -> ack_effect bs s s' /\ packet_frame s s' /\ Forall packet_obs os.
Proof. intros (I & _) B E. apply on_packet_effect; [exact B| |exact E]. intros q i J. destruct (ia_ackq _ _ _ _ _ I q i J) as (a & N & _). eauto. Qed.
Lemma packet_step s bs s' os : step s (EvPacket bs) = Some (s', os) -> c_up s = true /\ bytes_ok bs /\ exists os', os = ORecv bs :: os' /\ on_packet bs s = (s', os').
Proof.
  cbn [step]. destruct (c_up s && forallb is_byte bs) eqn:UP; [|discriminate]. apply andb_true_iff in UP as [U B]. destruct (on_packet bs s) as [s1 o] eqn:OP. intros [= <- <-].
  split; [exact U|]. split; [exact (bytes_ok_forallb _ B)|]. eauto.
Qed.

(** ** C23 *)
Lemma exec_up es s tr : exec conn0 es s tr -> (In EvConnect es <-> c_up s = true).
Proof.
  induction 1 as [|es s tr e s' os X IH ST]; [cbn; split; [contradiction|discriminate]|]. pose proof (proj1 (exec_good _ _ _ X)) as G.
  assert (H : (e = EvConnect /\ c_up s' = true) \/ (e <> EvConnect /\ c_up s' = c_up s)).
  { pose proof (good_case _ _ _ _ _ G ST) as K. destruct K; cbn; subst; auto; try (right; split; [discriminate|reflexivity]).
    right. split; [discriminate|]. destruct (packet_frame_of _ _ _ _ _ G H0 H1) as (_ & [] & _). assumption. }
  rewrite in_app_iff, IH. cbn [In]. destruct H as [[-> ->]|[N ->]]; intuition congruence.
Qed.
Lemma framing es s tr c cmd sep dep b : exec conn0 es s tr -> In EvConnect es -> payload c = Some (cmd, sep, dep) -> 0 <= sep < 128 -> 0 <= dep < 128 -> encodes cmd b ->
  exists cbs s' os, compose cmd = Ok cbs /\ bits_of cbs = b /\
    step s (EvCall c) = Some (s', OCall (length (c_tasks s)) c :: OWire (Some (length (c_tasks s))) (packet ((sends tr + 1) mod 256) sep dep cbs) :: os) /\
    forall o, In o os -> writes o = false.
Proof.
  intros X UP P H1 H2 EN. destruct (exec_good _ _ _ X) as [G A]. pose proof G as (I & SQ & SL). apply (exec_up _ _ _ X) in UP.
  pose proof (Z.mod_pos_bound (sends tr + 1) 256 ltac:(lia)) as MB.
  destruct (send_bytes_ok ((sends tr + 1) mod 256) sep dep cmd b MB H1 H2 EN) as (cbs & C1 & _ & C3 & C4). exists cbs.
  destruct (step s (EvCall c)) as [[s' os]|] eqn:ST.
  - pose proof (good_case _ _ _ _ _ G ST) as K. inversion K; subst; try discriminate P; rewrite SQ, land255 in *;
      match goal with H : payload c = Some _ |- _ => rewrite H in P; injection P as -> -> -> end; rewrite C4 in *; try discriminate;
      match goal with H : Ok _ = Ok _ |- _ => injection H as <- end; unfold conn_send; rewrite UP; cbn [app]; do 2 eexists; (split; [exact C1|split; [reflexivity|split; [reflexivity|]]]).
    + intros o [<-|[]]. reflexivity.
    + intros o [].
  - cbn [step] in ST. destruct (start_call _ _ _); discriminate.
Qed.
Lemma only_sends es s tr : exec conn0 es s tr -> always (fun a x => match x with (n, OWire (Some t) bs) => exists a' c, a = a' ++ [(n, OCall t c)] /\ sending c = true | _ => True end) tr.
Proof. intros X a [n o] b E. pose proof (proj2 (exec_good _ _ _ X) a (n, o) b E) as M. destruct o as [|[t|]| | | | | |]; auto. Qed.

(** ** C24, C25 *)
Lemma split_unique tr : always meaning tr -> forall a1 n1 c1 b1 a2 n2 c2 b2 t, tr = a1 ++ (n1, OCall t c1) :: b1 -> tr = a2 ++ (n2, OCall t c2) :: b2 -> a1 = a2 /\ n1 = n2 /\ c1 = c2 /\ b1 = b2.
Proof.
  intros A a1 n1 c1 b1 a2 n2 c2 b2 t E1 E2. pose proof (A _ _ _ E1) as M1. pose proof (A _ _ _ E2) as M2. unfold meaning in M1, M2. cbn [snd] in M1, M2.
  clear A. rewrite E1 in E2. clear E1 tr. revert a2 E2 M2. induction a1 as [|x a1 IH]; intros [|y a2] E M2; cbn in E.
  - injection E as -> -> ->. auto.
  - injection E as <- E. elim (M2 n1 c1). left. reflexivity.
  - injection E as -> E. elim (M1 n2 c2). left. reflexivity.
  - injection E as <- E. destruct (IH) with (a2 := a2) as (-> & R); auto; intros n c J; [eapply M1|eapply M2]; right; eassumption.
Qed.
Lemma always_prefix P a b : always P (a ++ b) -> always P a.
Proof. intros A x y z E. apply (A x y (z ++ b)). rewrite E, <- app_assoc. reflexivity. Qed.
Lemma sent_acked es s tr a n t b : exec conn0 es s tr -> tr = a ++ (n, ORet t (RBool true)) :: b ->
  exists a1 n0 c a2 m bs, a = a1 ++ (n0, OCall t c) :: a2 /\ sending c = true /\ In (m, ORecv bs) a2 /\ acknowledges bs ((sends a1 + 1) mod 256).
Proof.
  intros X E. destruct (exec_good _ _ _ X) as [_ A]. destruct (A _ _ _ E) as (c & n0 & k & m & bs & (a1 & a2 & -> & <-) & SC & (a1' & n1 & c1 & a2' & E2 & J) & AK).
  rewrite E in A. apply always_prefix in A. destruct (split_unique _ A _ _ _ _ _ _ _ _ _ eq_refl E2) as (<- & <- & <- & <-).
  exists a1, n0, c, a2, m, bs. auto.
Qed.
Lemma failed_late es s tr a n t b : exec conn0 es s tr -> tr = a ++ (n, ORet t (RBool false)) :: b ->
  exists a1 n0 c a2, a = a1 ++ (n0, OCall t c) :: a2 /\ sending c = true /\
    (((forall m d, ~ In (m, ORearm t d) a2) /\ n0 + send_timeout c <= n) \/
     (exists m d x y, a2 = x ++ (m, ORearm t d) :: y /\ (forall m' d', ~ In (m', ORearm t d') y) /\ m + 1000 * d <= n)).
Proof.
  intros X E. destruct (exec_good _ _ _ X) as [(I & _) A]. destruct (A _ _ _ E) as (c & n0 & k & dl & (a1 & a2 & -> & <-) & SC & AR & L). cbn [fst] in L.
  rewrite E in A. pose proof A as A'. apply always_prefix in A'. exists a1, n0, c, a2. split; [reflexivity|]. split; [exact SC|].
  destruct AR as [(n1 & k1 & c1 & (x & y & EX & _) & -> & NR)|(x & m & d & y & EX & -> & NR)].
  - left. destruct (split_unique _ A' _ _ _ _ _ _ _ _ _ eq_refl EX) as (<- & <- & <- & <-). split; [|exact L]. intros m d J. apply (NR m d). apply in_or_app. right. right. exact J.
  - right. destruct (app_cons_split (a1 ++ [(n0, OCall t c)]) a2 x (m, ORearm t d) y) as [(z & E1 & E2)|(z & E1 & E2)]; [rewrite <- app_assoc; exact EX| |exists m, d, z, y; auto].
    (* an extension before the call is impossible *)
    exfalso. destruct z as [|z0 z _] using rev_ind; [apply app_inj_tail in E1 as [_ E1]; discriminate|].
    rewrite app_comm_cons, app_assoc in E1. apply app_inj_tail in E1 as [E1 <-].
    assert (M : meaning x (m, ORearm t d)) by (apply (A x _ (z ++ (n0, OCall t c) :: a2 ++ (n, ORet t (RBool false)) :: b)); rewrite E1, <- !app_assoc; reflexivity).
    destruct M as (c' & n' & k' & m1 & bs & d' & (u & v & -> & _) & _).
    pose proof (A a1 (n0, OCall t c) (a2 ++ (n, ORet t (RBool false)) :: b) ltac:(rewrite <- app_assoc; reflexivity)) as M. unfold meaning in M. cbn [snd] in M.
    apply (M n' c'). rewrite E1, <- !app_assoc. apply in_or_app. right. left. reflexivity.
Qed.
Lemma rearm_announced es s tr a n t d b : exec conn0 es s tr -> tr = a ++ (n, ORearm t d) :: b ->
  exists a1 n0 c a2 m bs d', a = a1 ++ (n0, OCall t c) :: a2 /\ In (m, ORecv bs) a2 /\ announces bs ((sends a1 + 1) mod 256) d' /\ d = patience d'.
Proof.
  intros X E. destruct (exec_good _ _ _ X) as [_ A]. destruct (A _ _ _ E) as (c & n0 & k & m & bs & d' & (a1 & a2 & -> & <-) & SC & (a1' & n1 & c1 & a2' & E2 & J) & AN & ->).
  rewrite E in A. apply always_prefix in A. destruct (split_unique _ A _ _ _ _ _ _ _ _ _ eq_refl E2) as (<- & <- & <- & <-).
  exists a1, n0, c, a2, m, bs, d'. auto.
Qed.

(** ** C26 *)
Lemma conn_eq s s' : packet_frame s s' -> c_ackq s' = c_ackq s -> c_acks s' = c_acks s -> c_w s' = c_w s -> s' = s.
Proof. destruct s, s'. intros [] A B C. cbn in *. congruence. Qed.
Lemma zip_class f0 rest m : bytes_ok (35 :: 2 :: f0 :: rest) -> decode (35 :: 2 :: f0 :: rest) = Ok m -> exists d, m = VObj (CMsg m_Zip_ZipPacket) d.
Proof.
  intros B E. destruct (decode_frame 35 2 (f0 :: rest) B) as (r2 & _ & _ & _ & _ & _ & D). cbv zeta in D. rewrite E in D.
  change (lookup (256 * 35 + 2)) with (Some m_Zip_ZipPacket) in D. cbv iota in D. destruct (parse_attrs _ _ _ _ _ _) as [[d' r]|]; [|discriminate]. cbn [bind] in D. injection D as ->. eauto.
Qed.
Lemma on_packet_ack bs s s' os : bytes_ok bs -> zip_bit bs 6 \/ zip_bit bs 5 /\ zip_bit bs 4 -> on_packet bs s = (s', os) ->
  (s' = s /\ os = [OHandled false] /\ exists e, decode bs = Err e) \/
  exists d r, decode bs = Ok (VObj (CMsg m_Zip_ZipPacket) d) /\ ack_packet (VObj (CMsg m_Zip_ZipPacket) d) s = (s', r) /\ os = [match r with Ok _ => OHandled true | Err e => OErr e end] /\
    (truthy (getattr (VObj (CMsg m_Zip_ZipPacket) d) "ackResponse") = true \/
    truthy (getattr (VObj (CMsg m_Zip_ZipPacket) d) "nackResponse") = true /\ truthy (getattr (VObj (CMsg m_Zip_ZipPacket) d) "nackWaiting") = true).
Proof.
  intros B ZB E. unfold on_packet in E. destruct (decode bs) as [m|e] eqn:D; [right|left; injection E as <- <-; eauto].
  assert (SH : exists f0 rest, bs = 35 :: 2 :: f0 :: rest) by (destruct ZB as [(f0 & r & -> & _)|[(f0 & r & -> & _) _]]; eauto).
  destruct SH as (f0 & rest & ->). destruct (zip_class _ _ _ B D) as (d & ->). destruct (zip_decoded _ _ B D).
  set (m := VObj (CMsg m_Zip_ZipPacket) d) in *.
  change (is_msg m_Zip_ZipPacket m) with true in E. cbv iota in E. exists d. fold m. destruct (ack_packet m s) as [s1 r] eqn:AP. exists r.
  assert (C : truthy (getattr m "ackResponse") = true \/ truthy (getattr m "nackResponse") = true /\ truthy (getattr m "nackWaiting") = true)
    by (rewrite zv_ack, zv_nack, zv_wait; tauto).
  destruct C as [C|[C1 C2]].
  - rewrite C in E. injection E as <- <-. auto 8.
  - rewrite C1, C2 in E. destruct (truthy (getattr m "ackResponse")); injection E as <- <-; auto 8.
Qed.
Lemma ack_isolated es s tr bs s' os : exec conn0 es s tr -> zip_bit bs 6 \/ zip_bit bs 5 /\ zip_bit bs 4 -> step s (EvPacket bs) = Some (s', os) ->
  c_now s' = c_now s /\ c_up s' = c_up s /\ c_ka s' = c_ka s /\ c_seq s' = c_seq s /\ c_w s' = c_w s /\ c_tasks s' = c_tasks s /\
  (forall q i, dget Z.eqb q (c_ackq s) = Some i -> ~ zip_seq bs q -> dget Z.eqb q (c_ackq s') = Some i /\ nth_error (c_acks s') i = nth_error (c_acks s) i) /\
  (forall i, (forall q, In (q, i) (c_ackq s) -> ~ zip_seq bs q) -> nth_error (c_acks s') i = nth_error (c_acks s) i) /\
  ((forall q, zip_seq bs q -> dget Z.eqb q (c_ackq s) = None) -> s' = s) /\
  Forall (fun o => match o with ORecv _ | OHandled _ | OErr _ => True | _ => False end) os.
Proof.
  intros X ZB ST. destruct (exec_good _ _ _ X) as [G _]. destruct (packet_step _ _ _ _ ST) as (_ & B & os0 & -> & OP).
  pose proof G as (I & _).
  assert (OK : forall q i, In (q, i) (c_ackq s) -> exists a, nth_error (c_acks s) i = Some a) by (intros q i J; destruct (ia_ackq _ _ _ _ _ I q i J) as (a & N & _); eauto).
  assert (H : (s' = s \/ ack_effect bs s s' /\ packet_frame s s' /\ c_w s' = c_w s) /\ Forall (fun o => match o with ORecv _ | OHandled _ | OErr _ => True | _ => False end) os0).
  { destruct (on_packet_ack _ _ _ _ B ZB OP) as [(-> & -> & _)|(d & r & D & AP & -> & C)]; [split; [auto|repeat constructor]|].
    split; [right; exact (ack_packet_effect _ _ _ _ _ B D OK C AP)|]. repeat constructor. destruct r; exact Logic.I. }
  destruct H as [H O]. assert (OS : Forall (fun o => match o with ORecv _ | OHandled _ | OErr _ => True | _ => False end) (ORecv bs :: os0)) by (constructor; [exact Logic.I|exact O]).
  destruct H as [->|(AE & F & W)]; [repeat split; auto|]. pose proof F as [F1 F2 F3 F4 F5].
  repeat (split; [assumption|]).
  destruct AE as [E1 E2|q0 i0 a E1 E2 (ZS & _) E4 E5 E6|q0 i0 a d E1 E2 (ZS & _) E4 E5 E6].
  - assert (s' = s) by (apply conn_eq; assumption). subst. repeat split; auto.
  - split; [|split; [|split; [|exact OS]]].
    + intros q i G1 NZ. assert (NQ : q <> q0) by (intros ->; contradiction). split; [rewrite E5, dget_ddel_other by exact NQ; exact G1|].
      rewrite E6. apply nth_upd_other. intros ->. apply NQ. apply dget_in in E1, G1.
      assert (U : forall l, NoDup (map snd l) -> In (q, i) l -> In (q0, i) l -> q = q0).
      { clear. induction l as [|[k v] l IH]; cbn; [contradiction|]. intros N [A|A] [B|B]; inversion N; subst; auto.
        - congruence. - injection A as -> ->. elim H1. apply (in_map snd) in B. exact B. - injection B as -> ->. elim H1. apply (in_map snd) in A. exact A. }
      exact (U _ (ia_vals _ _ _ _ _ I) G1 E1).
    + intros i N. rewrite E6. apply nth_upd_other. intros ->. exact (N q0 (dget_in _ _ _ E1) ZS).
    + intros N. rewrite (N q0 ZS) in E1. discriminate.
  - split; [|split; [|split; [|exact OS]]].
    + intros q i G1 NZ. assert (NQ : q <> q0) by (intros ->; contradiction). split; [rewrite E5; exact G1|].
      rewrite E6. apply nth_upd_other. intros ->. apply NQ. apply dget_in in E1, G1.
      assert (U : forall l, NoDup (map snd l) -> In (q, i) l -> In (q0, i) l -> q = q0).
      { clear. induction l as [|[k v] l IH]; cbn; [contradiction|]. intros N [A|A] [B|B]; inversion N; subst; auto.
        - congruence. - injection A as -> ->. elim H1. apply (in_map snd) in B. exact B. - injection B as -> ->. elim H1. apply (in_map snd) in A. exact A. }
      exact (U _ (ia_vals _ _ _ _ _ I) G1 E1).
    + intros i N. rewrite E6. apply nth_upd_other. intros ->. exact (N q0 (dget_in _ _ _ E1) ZS).
    + intros N. rewrite (N q0 ZS) in E1. discriminate.
Qed.

(** ** C18: a positive answer made from a request resolves the send with that number *)
Lemma ack_resolves es s tr w q o (so : bool) sq a b i : exec conn0 es s tr -> In EvConnect es -> 0 <= sq < 256 -> 0 <= a < 128 -> 0 <= b < 128 -> dget Z.eqb sq (c_ackq s) = Some i ->
  exists x s', nth_error (c_acks s) i = Some x /\ step s (EvPacket [35; 2; ack_flags true w q o; 16 * b2 so; sq; a; b]) = Some (s', [ORecv [35; 2; ack_flags true w q o; 16 * b2 so; sq; a; b]; OHandled true]) /\
    c_ackq s' = ddel Z.eqb sq (c_ackq s) /\ c_acks s' = upd i (mkAck SReceived (a_delay x) true) (c_acks s) /\ c_tasks s' = c_tasks s /\ c_w s' = c_w s /\ c_seq s' = c_seq s.
Proof.
  intros X UP HS HA HB DG. destruct (exec_good _ _ _ X) as [(I & _) _]. apply (exec_up _ _ _ X) in UP. destruct (ia_ackq _ _ _ _ _ I _ _ (dget_in _ _ _ DG)) as (x & N & _). exists x.
  set (bs := [35; 2; ack_flags true w q o; 16 * b2 so; sq; a; b]).
  destruct (ack_read true w q o so sq a b HS HA HB) as (d & D & R1 & R2 & R3 & R4 & R5 & R6 & R7 & R8 & R9 & R10 & _). fold bs in D.
  exists (set_ack i (ack_received x) (set_ackq (ddel Z.eqb sq (c_ackq s)) s)). split; [exact N|]. split; [|cbn; auto].
  cbn [step]. rewrite UP. assert (FB : forallb is_byte bs = true).
  { unfold bs, ack_flags, b2. cbn [forallb]. unfold is_byte. destruct w, q, o, so; cbn [negb]; lia. }
  rewrite FB. cbn [andb]. unfold on_packet. rewrite D. set (m := VObj (CMsg m_Zip_ZipPacket) d).
  assert (GA : forall n v, aget n d = Some v -> getattr m n = v) by (intros n v E; unfold m, getattr; rewrite E; reflexivity).
  change (is_msg m_Zip_ZipPacket m) with true. cbv iota. rewrite (GA _ _ R2). cbn [b2 truthy]. change (negb (1 =? 0)) with true. cbv iota.
  unfold ack_packet. rewrite (GA _ _ R3). cbn [negb b2 truthy]. change (negb (0 =? 0)) with false. cbn [andb].
  rewrite (GA _ _ R10). cbn [to_int]. rewrite DG. cbn [c_acks set_ackq]. rewrite N. reflexivity.
Qed.
