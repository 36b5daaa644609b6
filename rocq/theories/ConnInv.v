(** Every step preserves the invariant of the acknowledgement bookkeeping; what each return and each extension means. *)
From Coq Require Import String ZArith List Bool Lia ZifyBool ZifyNat.
From Verif Require Import Py BitStream Schema Registry Codec SpecBits BitLemmas HeaderProofs ReportProofs Waiter Conn SpecConn ConnLemmas ConnPacket ConnAck.
Import ListNotations.
Open Scope list_scope.
Open Scope string_scope.
Open Scope list_scope.
Open Scope Z_scope.

Lemma set_pc_eq t p s x : nth_error (c_tasks s) t = Some x -> set_pc t p s = set_task t (mkT (t_call x) p) s.
Proof. unfold set_pc. intros ->. reflexivity. Qed.
Lemma bytes_ok_forallb bs : forallb is_byte bs = true -> bytes_ok bs.
Proof. intros H. apply Forall_forall. intros x I. apply (proj1 (forallb_forall _ _) H) in I. unfold is_byte in I. lia. Qed.

(** ** incoming packets and the acknowledgement bookkeeping *)
Inductive ack_effect (bs : list Z) (s s' : conn) : Prop :=
| AE_none : c_ackq s' = c_ackq s -> c_acks s' = c_acks s -> ack_effect bs s s'
| AE_ack q i a : dget Z.eqb q (c_ackq s) = Some i -> nth_error (c_acks s) i = Some a -> acknowledges bs q -> c_w s' = c_w s ->
    c_ackq s' = ddel Z.eqb q (c_ackq s) -> c_acks s' = upd i (ack_received a) (c_acks s) -> ack_effect bs s s'
| AE_queued q i a d : dget Z.eqb q (c_ackq s) = Some i -> nth_error (c_acks s) i = Some a -> announces bs q d -> c_w s' = c_w s ->
    c_ackq s' = c_ackq s -> c_acks s' = upd i (mkAck SQueued (patience d) true) (c_acks s) -> ack_effect bs s s'.
Definition packet_obs (o : obs) : Prop := match o with OHandled _ | OErr _ | OHeard _ => True | _ => False end.
Record packet_frame (s s' : conn) : Prop := {
  pf_now : c_now s' = c_now s; pf_up : c_up s' = c_up s; pf_ka : c_ka s' = c_ka s; pf_seq : c_seq s' = c_seq s; pf_tasks : c_tasks s' = c_tasks s }.
Lemma frame_refl s : packet_frame s s. Proof. constructor; reflexivity. Qed.

Lemma ack_packet_effect bs d s s' r : bytes_ok bs -> decode bs = Ok (VObj (CMsg m_Zip_ZipPacket) d) ->
  (forall q i, In (q, i) (c_ackq s) -> exists a, nth_error (c_acks s) i = Some a) ->
  (truthy (getattr (VObj (CMsg m_Zip_ZipPacket) d) "ackResponse") = true \/
    truthy (getattr (VObj (CMsg m_Zip_ZipPacket) d) "nackResponse") = true /\ truthy (getattr (VObj (CMsg m_Zip_ZipPacket) d) "nackWaiting") = true) ->
  ack_packet (VObj (CMsg m_Zip_ZipPacket) d) s = (s', r) -> ack_effect bs s s' /\ packet_frame s s' /\ c_w s' = c_w s.
Proof.
  intros B D OK C E. destruct (zip_decoded _ _ B D). unfold ack_packet in E.
  set (m := VObj (CMsg m_Zip_ZipPacket) d) in *.
  assert (EN : (exists q i a, to_int (getattr m "seqNo") = Ok q /\ dget Z.eqb q (c_ackq s) = Some i /\ nth_error (c_acks s) i = Some a) \/ s' = s).
  { destruct (to_int (getattr m "seqNo")) as [q|]; [destruct (dget Z.eqb q (c_ackq s)) as [i|] eqn:G|].
    - destruct (OK q i (dget_in _ _ _ G)) as (a & N). left. eauto 8.
    - right. destruct (_ && _); injection E as <- _; reflexivity.
    - right. destruct (_ && _); injection E as <- _; reflexivity. }
  destruct EN as [(q & i & a & TI & G & N)| ->]; [|split; [apply AE_none; reflexivity|split; [apply frame_refl|reflexivity]]].
  rewrite TI, G in E.
  destruct (truthy (getattr m "nackResponse") && truthy (getattr m "nackWaiting")) eqn:NW.
  - apply andb_true_iff in NW as [N5 N4]. destruct (expected_delay (getattr m "headerExtension")) as [dl|] eqn:ED.
    + rewrite N in E. injection E as <- _. split; [|split; [constructor; reflexivity|reflexivity]].
      apply (AE_queued bs s _ q i a dl); try reflexivity; try assumption.
      split; [apply zv_seq; exact TI|]. split; [apply zv_nack; exact N5|]. split; [apply zv_wait; exact N4|].
      unfold expected_delay in ED. destruct (getattr m "headerExtension") eqn:GH; try discriminate ED.
      unfold m, getattr in GH. destruct (aget "headerExtension" d) as [v|] eqn:AG.
      * subst v. exists d, l. split; [exact D|]. split; [exact AG|]. destruct (dget Z.eqb 1 l); [exact ED|]. injection ED as <-. reflexivity.
      * destruct (find_attr _ _); [|discriminate GH]. destruct (a_ty a0); try discriminate GH; vm_compute in GH; discriminate GH.
    + injection E as <- _. split; [apply AE_none; reflexivity|split; [apply frame_refl|reflexivity]].
  - cbn [c_acks set_ackq] in E. rewrite N in E. injection E as <- _. split; [|split; [constructor; reflexivity|reflexivity]].
    apply (AE_ack bs s _ q i a); try reflexivity; try assumption.
    split; [apply zv_seq; exact TI|]. apply andb_false_iff in NW. split.
    + apply zv_ack. destruct C as [C|[C1 C2]]; [exact C|]. destruct NW; congruence.
    + intros [Z5 Z4]. apply zv_nack in Z5. apply zv_wait in Z4. destruct NW; congruence.
Qed.
Lemma command_received_frame m s s' os : command_received m s = (s', os) -> packet_frame s s' /\ c_ackq s' = c_ackq s /\ c_acks s' = c_acks s /\ Forall packet_obs os.
Proof.
  unfold command_received. destruct (message_received _ _) as [w r]. intros E. destruct r as [[]|]; injection E as <- <-; (split; [constructor; reflexivity|split; [reflexivity|split; [reflexivity|]]]); repeat constructor.
Qed.
Lemma on_packet_effect bs s s' os : bytes_ok bs -> (forall q i, In (q, i) (c_ackq s) -> exists a, nth_error (c_acks s) i = Some a) ->
  on_packet bs s = (s', os) -> ack_effect bs s s' /\ packet_frame s s' /\ Forall packet_obs os.
Proof.
  intros B OK E. unfold on_packet in E.
  assert (NOP : forall b, (s, [OHandled b]) = (s', os) -> ack_effect bs s s' /\ packet_frame s s' /\ Forall packet_obs os).
  { intros b [= <- <-]. split; [apply AE_none; reflexivity|]. split; [apply frame_refl|]. repeat constructor. }
  destruct (decode bs) as [m|] eqn:D; [|exact (NOP _ E)].
  destruct (is_msg m_Zip_ZipPacket m) eqn:Z.
  - destruct (is_msg_true m_Zip_ZipPacket m bs zip_in B D Z) as (d & ->).
    set (m := VObj (CMsg m_Zip_ZipPacket) d) in *.
    assert (AK : (truthy (getattr m "ackResponse") = true \/ truthy (getattr m "nackResponse") = true /\ truthy (getattr m "nackWaiting") = true) ->
      (let (s0, r) := ack_packet m s in (s0, [match r with Ok _ => OHandled true | Err e => OErr e end])) = (s', os) ->
      ack_effect bs s s' /\ packet_frame s s' /\ Forall packet_obs os).
    { intros C E'. destruct (ack_packet m s) as [s1 r] eqn:AP. injection E' as <- <-.
      destruct (ack_packet_effect bs d s s1 r B D OK C AP) as (A1 & A2 & A3). split; [exact A1|]. split; [exact A2|]. repeat constructor. destruct r; exact Logic.I. }
    destruct (truthy (getattr m "ackResponse")) eqn:C1; [apply AK; auto|].
    destruct (truthy (getattr m "nackResponse")) eqn:C2; [destruct (truthy (getattr m "nackWaiting")) eqn:C3; [apply AK; auto|exact (NOP _ E)]|].
    destruct (truthy (getattr m "ackRequest")); [exact (NOP _ E)|].
    destruct (truthy (getattr m "zwCmdIncluded")); [|exact (NOP _ E)].
    destruct (command_received_frame _ _ _ _ E) as (F & Q & A & P). split; [apply AE_none; assumption|auto].
  - destruct (is_msg m_Zip_ZipKeepAlive m); [exact (NOP _ E)|].
    destruct (is_msg m_ZipND_ZipNodeAdvertisement m); [|exact (NOP _ E)].
    destruct (command_received_frame _ _ _ _ E) as (F & Q & A & P). split; [apply AE_none; assumption|auto].
Qed.

(** ** meaning of the observations about sends *)
Definition meaning (tr : trace) (x : Z * obs) : Prop :=
  match snd x with
  | ORet t (RBool true) => exists c n k m bs, born tr t c n k /\ sending c = true /\ since tr t (m, ORecv bs) /\ acknowledges bs ((k + 1) mod 256)
  | ORet t (RBool false) => exists c n k dl, born tr t c n k /\ sending c = true /\ armed tr t dl /\ dl <= fst x
  | ORearm t d => exists c n k m bs d', born tr t c n k /\ sending c = true /\ since tr t (m, ORecv bs) /\ announces bs ((k + 1) mod 256) d' /\ d = patience d'
  | OCall t _ => forall n c, ~ In (n, OCall t c) tr
  | OWire (Some t) bs => exists tr' c, tr = tr' ++ [(fst x, OCall t c)] /\ sending c = true
  | _ => True
  end.
Definition news (tr : trace) (new : trace) : Prop := forall a x b, new = a ++ x :: b -> meaning (tr ++ a) x.
Lemma news_nil tr : news tr []. Proof. intros [] x b E; discriminate. Qed.
Lemma news_one tr x : meaning tr x -> news tr [x].
Proof. intros M [|y a] z b E; [injection E as <- _; rewrite app_nil_r; exact M|destruct a; discriminate]. Qed.
Lemma news_trivial tr new : (forall n o, In (n, o) new -> match o with ORet _ (RBool _) | ORearm _ _ | OCall _ _ | OWire (Some _) _ => False | _ => True end) -> news tr new.
Proof.
  intros H a [n o] b ->. specialize (H n o ltac:(apply in_or_app; right; left; reflexivity)). unfold meaning. cbn [snd]. destruct o as [| [|] | | | | | | ? []]; auto; contradiction.
Qed.
Definition callobs (t : nat) (o : list obs) : Prop :=
  o = [] \/ (exists bs, o = [OWire (Some t) bs]) \/ (exists e, o = [ORet t (RExc e)]) \/ exists bs e, o = [OWire (Some t) bs; ORet t (RExc e)].
Lemma callobs_send t bs s o : o = [] \/ (exists e, o = [ORet t (RExc e)]) -> callobs t (conn_send (Some t) bs s ++ o).
Proof. unfold callobs, conn_send. intros [->|(e & ->)]; destruct (c_up s); cbn; eauto 8. Qed.
Lemma news_call tr n t c o : (forall m c', ~ In (m, OCall t c') tr) -> sending c = true -> callobs t o -> news tr ([(n, OCall t c)] ++ stamp n o).
Proof.
  intros F SC CO a x b E. destruct a as [|y a]; [injection E as <- _; unfold meaning; cbn [snd]; rewrite app_nil_r; exact F|].
  injection E as <- E. assert (W : forall bs, meaning (tr ++ (n, OCall t c) :: []) (n, OWire (Some t) bs)) by (intros bs; exists tr, c; auto).
  destruct CO as [->|[(bs & ->)|[(e & ->)|(bs & e & ->)]]]; cbn in E.
  - destruct a; discriminate.
  - destruct a as [|? []]; try discriminate. injection E as <- _. apply W.
  - destruct a as [|? []]; try discriminate. injection E as <- _. exact Logic.I.
  - destruct a as [|? [|? []]]; try discriminate; [injection E as <- _; apply W|injection E as _ <- _; exact Logic.I].
Qed.
Lemma quiet_one n o : match o with OCall _ _ | ORearm _ _ => False | _ => True end -> quiet [(n, o)].
Proof. intros H m o' [E|[]]. injection E as <- <-. exact H. Qed.
Lemma quiet_nil : quiet []. Proof. intros m o []. Qed.

Definition good (s : conn) (tr : trace) : Prop := cinv s tr /\ c_seq s = sends tr mod 256 /\ c_seq s = Z.land (c_seq s) 255.
Lemma sends_quiet tr x : quiet x -> sends (tr ++ x) = sends tr.
Proof.
  intros Q. rewrite sends_app. enough (sends x = 0) by lia. unfold sends.
  induction x as [|[n o] x IH]; [reflexivity|]. cbn [filter snd]. assert (H := Q n o ltac:(left; reflexivity)). destruct o; try contradiction; apply IH; intros m o' I; exact (Q m o' (or_intror I)).
Qed.
Lemma sends_call tr n t c : sends (tr ++ [(n, OCall t c)]) = sends tr + if sending c then 1 else 0.
Proof. rewrite sends_app. f_equal. unfold sends. cbn [filter snd]. destruct (sending c); reflexivity. Qed.
Lemma land255 k : Z.land (k mod 256 + 1) 255 = (k + 1) mod 256.
Proof. change 255 with (Z.ones 8). rewrite Z.land_ones by lia. change (2 ^ 8) with 256. rewrite Z.add_mod_idemp_l by lia. reflexivity. Qed.

Lemma inv_finish s tr t x r : cinv s tr -> nth_error (c_tasks s) t = Some x -> cinv (set_pc t (PDone r) s) (tr ++ [(c_now s, ORet t r)]).
Proof.
  intros I E. rewrite (set_pc_eq _ _ _ _ E). unfold cinv. cbn. apply inv_pc; [|exact E|discriminate]. apply inv_trace; [exact I|]. apply quiet_one. exact Logic.I.
Qed.
(** start_wait touches no acknowledgement *)
Lemma start_wait_eq t h f tmo s x : nth_error (c_tasks s) t = Some x -> exists w p, start_wait t h f tmo s = set_task t (mkT (t_call x) p) (set_w w s) /\
  (exists dl ph, p = PWait h f dl ph).
Proof.
  intros E. unfold start_wait. destruct (0 <? tmo); [|destruct (nth_error (w_futs (c_w s)) f) as [[]|]].
  all: try (rewrite (set_pc_eq _ _ _ x) by exact E; do 2 eexists; split; [reflexivity|do 2 eexists; reflexivity]).
  all: try (exists (c_w s); rewrite (set_pc_eq _ _ _ x) by exact E; eexists; split; [destruct s; reflexivity|do 2 eexists; reflexivity]).
Qed.
(** what a finished sending phase looks like *)
Lemma inv_after s tr t x b ses s' os : good s tr -> nth_error (c_tasks s) t = Some x -> after_send t b ses s = (s', os) ->
  (ses = None -> meaning tr (c_now s, ORet t (RBool b))) -> match t_call x with CSend _ _ _ _ => ses = None | CSendRecv _ _ _ _ _ => ses <> None | CWait _ _ => False end ->
  good s' (tr ++ stamp (c_now s) os) /\ news tr (stamp (c_now s) os).
Proof.
  intros (I & SQ & SL) E A M C. unfold after_send in A. rewrite E in A.
  assert (FIN : (set_pc t (PDone (RBool b)) s, [ORet t (RBool b)]) = (s', os) -> ses = None -> good s' (tr ++ stamp (c_now s) os) /\ news tr (stamp (c_now s) os)).
  { intros [= <- <-] N. cbn [stamp map]. split; [|apply news_one; auto]. split; [exact (inv_finish _ _ _ _ _ I E)|].
    rewrite sends_quiet by (apply quiet_one; exact Logic.I). rewrite (set_pc_eq _ _ _ _ E). auto. }
  destruct ses as [f|]; [|apply FIN; [exact A|reflexivity]].
  destruct x as [c p]. cbn [t_call] in *. destruct c; try discriminate C; try contradiction.
  destruct (start_wait_eq t h f timeout s _ E) as (w & p' & SW & (dl & ph & ->)). rewrite SW in A. injection A as <- <-. cbn [stamp map t_call].
  split; [|apply news_nil]. rewrite app_nil_r. split; [|auto]. unfold cinv. cbn. apply (inv_pc _ _ _ _ _ I _ _ _ E). discriminate.
Qed.

Lemma step_good s e s' os tr : good s tr -> step s e = Some (s', os) -> good s' (tr ++ stamp (c_now s) os) /\ news tr (stamp (c_now s) os).
Proof.
  intros G ST. pose proof G as (I & SQ & SL). destruct e; cbn [step] in ST.
  - (* connect *) injection ST as <- <-. cbn [stamp map]. rewrite app_nil_r. split; [|apply news_nil]. split; [exact I|]. auto.
  - (* clock *) destruct (Z.leb_spec 0 dt); [|discriminate]. injection ST as <- <-. cbn [stamp map]. rewrite app_nil_r. split; [|apply news_nil]. split; [|auto].
    unfold cinv. cbn. eapply inv_now; [exact I|lia].
  - (* call *)
    set (t := length (c_tasks s)) in *. set (s0 := mkC (c_now s) (c_up s) (c_ka s) (c_seq s) (c_ackq s) (c_acks s) (c_w s) (c_tasks s ++ [mkT c (PDone (RExc EUnmodelled))])) in *.
    destruct (start_call t c s0) as [s1 o] eqn:SC. injection ST as <- <-. cbn [stamp map].
    change ((c_now s, OCall t c) :: map (pair (c_now s)) o) with ([(c_now s, OCall t c)] ++ stamp (c_now s) o). rewrite app_assoc. set (tr1 := tr ++ [(c_now s, OCall t c)]).
    assert (I0 : cinv s0 tr1) by (apply inv_call; exact I).
    assert (E0 : nth_error (c_tasks s0) t = Some (mkT c (PDone (RExc EUnmodelled)))) by (cbn; rewrite nth_snoc, Nat.eqb_refl; reflexivity).
    assert (BN : born tr1 t c (c_now s) (sends tr)) by (exists tr, []; auto).
    assert (SD : sends tr1 = sends tr + if sending c then 1 else 0) by apply sends_call.
    assert (NR : forall m d, ~ In (m, ORearm t d) tr1 ).
    { intros m d J. apply in_app_iff in J as [J|[J|[]]]; [|discriminate]. pose proof (ia_fresh _ _ _ _ _ I _ _ J) as L. cbn in L. exact (Nat.lt_irrefl _ L). }
    assert (SEND : forall cmd sep dep tmo ses w, sending c = true -> send_timeout c = tmo -> match c with CSend _ _ _ _ => ses = None | CSendRecv _ _ _ _ _ => ses <> None | CWait _ _ => False end ->
      start_send t cmd sep dep tmo ses (set_w w s0) = (s1, o) -> good s1 (tr1 ++ stamp (c_now s) o) /\ callobs t o).
    { intros cmd sep dep tmo ses w SN TM SS E. rewrite SN in SD. unfold start_send in E. cbn [c_seq set_w s0] in E. rewrite SQ, land255 in E.
      set (sq := (sends tr + 1) mod 256) in *.
      assert (LS : sq = Z.land sq 255). { unfold sq. change 255 with (Z.ones 8). rewrite Z.land_ones by lia. change (2 ^ 8) with 256. rewrite Z.mod_mod by lia. reflexivity. }
      destruct (send_bytes sq sep dep cmd) as [bs|e].
      - assert (QW : forall sx, quiet (stamp (c_now s) (conn_send (Some t) bs sx))).
        { intros sx n ob. unfold conn_send. destruct (c_up sx); cbn; [|tauto]. intros [X|[]]. injection X as <- <-. exact Logic.I. }
        destruct (dmem Z.eqb sq _) eqn:DM.
        + cbn [finish] in E. injection E as <- <-. unfold stamp. rewrite map_app. fold (stamp (c_now s) (conn_send (Some t) bs (set_seq sq (set_w w s0)))). cbn [map]. split.
          * split; [|split; [rewrite app_assoc, sends_quiet by (apply quiet_one; exact Logic.I); rewrite sends_quiet by apply QW; rewrite SD|]].
            -- rewrite app_assoc. assert (I1 := inv_trace _ _ _ _ _ I0 _ (QW (set_seq sq (set_w w s0)))).
               exact (inv_finish (reset_ka (set_seq sq (set_w w s0))) _ t _ (RExc EDuplicateAck) I1 E0).
            -- rewrite (set_pc_eq _ _ _ (mkT c (PDone (RExc EUnmodelled)))) by exact E0. reflexivity.
            -- rewrite (set_pc_eq _ _ _ (mkT c (PDone (RExc EUnmodelled)))) by exact E0. exact LS.
          * apply callobs_send. right. eauto.
        + cbn [c_acks add_ack reset_ka set_seq set_w s0 c_now] in E. injection E as <- <-. split.
          * split; [|split; [rewrite sends_quiet by apply QW; rewrite SD|]]; rewrite (set_pc_eq _ _ _ (mkT c (PDone (RExc EUnmodelled)))) by exact E0.
            -- unfold cinv. cbn. apply inv_trace; [|apply QW]. apply (inv_send _ _ _ _ _ I0 t c (PDone (RExc EUnmodelled))); auto; try discriminate.
               ++ apply dmem_false. exact DM.
               ++ exists (c_now s), (sends tr). auto.
               ++ left. exists (c_now s), (sends tr), c. rewrite TM. auto.
               ++ cbn. destruct (Z.ltb_spec 0 tmo); [congruence|]. intros _. cbn. lia.
            -- reflexivity.
            -- exact LS.
          * rewrite <- (app_nil_r (conn_send _ _ _)). apply callobs_send. auto.
      - cbn [finish] in E. injection E as <- <-. cbn [stamp map]. split.
        + split; [|split; [rewrite sends_quiet by (apply quiet_one; exact Logic.I); rewrite SD|]].
          * exact (inv_finish (set_seq sq (set_w w s0)) _ t _ (RExc e) I0 E0).
          * rewrite (set_pc_eq _ _ _ (mkT c (PDone (RExc EUnmodelled)))) by exact E0. reflexivity.
          * rewrite (set_pc_eq _ _ _ (mkT c (PDone (RExc EUnmodelled)))) by exact E0. exact LS.
        + right. right. left. eauto. }
    assert (NEWS : sending c = true -> callobs t o -> news tr ([(c_now s, OCall t c)] ++ stamp (c_now s) o)).
    { intros SC' CO. apply news_call; auto. intros n c' J. pose proof (ia_fresh _ _ _ _ _ I _ _ J) as L. exact (Nat.lt_irrefl _ L). }
    clearbody tr1. destruct c; cbn [start_call] in SC.
    + change s0 with (set_w (c_w s0) s0) in SC. destruct (SEND _ _ _ _ _ _ eq_refl eq_refl eq_refl SC). auto.
    + destruct (add_session h (c_w s0)) as [f w]. assert (NS : Some f <> None) by discriminate. destruct (SEND _ _ _ _ _ _ eq_refl eq_refl NS SC). auto.
    + destruct (add_session h (c_w s0)) as [f w]. destruct (start_wait_eq t h f timeout (set_w w s0) _ E0) as (w' & p' & SW & (dl & ph & ->)). rewrite SW in SC. injection SC as <- <-.
      cbn [stamp map t_call]. rewrite app_nil_r. split; [|apply news_one; intros n c' J; exact (Nat.lt_irrefl _ (ia_fresh _ _ _ _ _ I _ _ J))].
      split; [|split; [rewrite SD; cbn [sending]; rewrite Z.add_0_r; exact SQ|exact SL]]. unfold cinv. apply (inv_pc _ _ _ _ _ I0 t _ _ E0). discriminate.
  - (* packet *)
    destruct (c_up s && forallb is_byte bs) eqn:UP; [|discriminate]. apply andb_true_iff in UP as [_ BY]. apply bytes_ok_forallb in BY.
    destruct (on_packet bs s) as [s1 o] eqn:OP. injection ST as <- <-. cbn [stamp map].
    change ((c_now s, ORecv bs) :: map (pair (c_now s)) o) with ([(c_now s, ORecv bs)] ++ stamp (c_now s) o). rewrite app_assoc. set (tr1 := tr ++ [(c_now s, ORecv bs)]).
    destruct (on_packet_effect bs s s1 o BY) as (AE & PF & PO); [intros q i J; destruct (ia_ackq _ _ _ _ _ I q i J) as (a & N & _); eauto|exact OP|]. destruct PF.
    assert (QO : quiet (stamp (c_now s) o)).
    { intros n ob J. unfold stamp in J. apply in_map_iff in J as (o' & X & J). injection X as <- <-. rewrite Forall_forall in PO. specialize (PO _ J). destruct o'; try contradiction; exact Logic.I. }
    split.
    + assert (I1 : ackinv (c_now s) (c_ackq s1) (c_acks s1) (c_tasks s) tr1).
      { destruct AE as [E1 E2|q i a E1 E2 E3 E4 E5 E6|q i a d E1 E2 E3 E4 E5 E6].
        - rewrite E1, E2. apply inv_trace; [exact I|]. apply quiet_one. exact Logic.I.
        - rewrite E6. apply (inv_ack _ _ _ _ _ I q i a); auto; cbn; try discriminate. apply dget_in; exact E1.
        - rewrite E6. apply (inv_ack _ _ _ _ _ I q i a); auto; cbn; try discriminate; [apply dget_in; exact E1|]. intros _. split; [exact E5|]. exists d. auto. }
      split; [|rewrite pf_seq0, sends_quiet by exact QO; unfold tr1; rewrite sends_quiet by (apply quiet_one; exact Logic.I); auto].
      unfold cinv. rewrite pf_now0, pf_tasks0. apply inv_trace; assumption.
    + apply news_trivial. intros n ob J. apply in_app_iff in J as [[J|[]]|J]; [injection J as <- <-; exact Logic.I|].
      unfold stamp in J. apply in_map_iff in J as (o' & X & J). injection X as <- <-. rewrite Forall_forall in PO. specialize (PO _ J). destruct o'; try contradiction; exact Logic.I.
  - (* timer *)
    destruct (nth_error (c_tasks s) t) as [[c p]|] eqn:E; [|discriminate]. destruct p as [aid sq dl ph ses|h f dl ph| |]; try discriminate; destruct ph; try discriminate.
    + destruct (nth_error (c_acks s) aid) as [a|]; [|discriminate]. destruct (Z.leb_spec dl (c_now s)); cbn [andb] in ST; [|discriminate]. destruct (negb (a_set a)); [|discriminate].
      injection ST as <- <-. cbn [stamp map]. split; [|apply news_nil]. rewrite (set_pc_eq _ _ _ _ E). split; [|rewrite app_nil_r; auto]. unfold cinv. cbn.
      apply (inv_ph _ _ _ _ _ I t c aid sq dl PhWaiting ses); auto; [intros n o []|]. rewrite app_nil_r. exact (at_dl _ _ _ _ _ _ _ _ _ _ _ (ia_task _ _ _ _ _ I _ _ _ _ _ _ _ E)).
    + destruct (dl <=? c_now s); [|discriminate]. injection ST as <- <-. cbn [stamp map]. split; [|apply news_nil]. rewrite (set_pc_eq _ _ _ _ E), app_nil_r. split; [|auto]. unfold cinv. cbn.
      apply (inv_pc _ _ _ _ _ I t _ _ E). discriminate.
  - (* resume *)
    destruct (nth_error (c_tasks s) t) as [[c p]|] eqn:E; [|discriminate]. cbn [t_pc] in ST.
    assert (POP : forall h r, Some (finish t r (set_w (pop_sess h (c_w s)) s)) = Some (s', os) -> match r with RBool _ => False | _ => True end -> good s' (tr ++ stamp (c_now s) os) /\ news tr (stamp (c_now s) os)).
    { intros h r X NB. unfold finish in X. injection X as <- <-. cbn [stamp map]. split; [|apply news_one; unfold meaning; cbn; destruct r; [contradiction|exact Logic.I|exact Logic.I]].
      split; [exact (inv_finish (set_w (pop_sess h (c_w s)) s) _ _ _ _ I E)|].
      rewrite sends_quiet by (apply quiet_one; exact Logic.I). rewrite (set_pc_eq _ _ _ (mkT c p)) by exact E. auto. }
    destruct p as [aid sq dl ph ses|h f dl ph|h f|r]; cbn [resume] in ST; [| |eapply POP; [exact ST|exact Logic.I]|discriminate].
    + pose proof (ia_task _ _ _ _ _ I _ _ _ _ _ _ _ E) as [H1 H2 (n & k & a & B & EK & N & R1 & R2) H4 H5 H6]. destruct ph.
      * rewrite N in ST. destruct a as [st d b]. destruct b; [|discriminate]. pose proof (ia_set _ _ _ _ _ I _ _ N eq_refl) as NP. cbn in NP, R1, R2.
        destruct st; [congruence| |].
        -- (* queued *) injection ST as <- <-. cbn [stamp map]. destruct (R2 eq_refl) as (m & bs & d' & S1 & S2 & ->).
           split; [|apply news_one; unfold meaning; cbn [snd]; exists c, n, k, m, bs, d'; subst sq; auto].
           rewrite (set_pc_eq _ _ _ (mkT c (PAck aid sq dl PhWaiting ses))) by exact E. cbn [t_call]. split.
           ++ unfold cinv. cbn. assert (I2 := inv_clear _ _ _ _ _ I _ _ N). cbn [a_status a_delay] in I2.
              apply (inv_ph _ _ _ _ _ I2 t c aid sq dl PhWaiting ses); [exact E|intros m' o [X|[]]; injection X as <- <-; reflexivity| |congruence].
              right. exists tr, (c_now s), (patience d'), []. auto.
           ++ rewrite sends_app. cbn. rewrite Z.add_0_r. auto.
        -- (* acknowledged *) destruct (R1 eq_refl) as (m & bs & S1 & S2). injection ST as ST.
           eapply (inv_after s tr t _ true ses s' os G E ST); [|cbn [t_call]; exact H2]. intros _. unfold meaning. cbn [snd]. exists c, n, k, m, bs. subst sq. auto.
      * injection ST as <- <-. cbn [stamp map]. split; [|apply news_nil]. rewrite (set_pc_eq _ _ _ _ E). split; [|rewrite app_nil_r; auto]. unfold cinv. cbn.
        apply (inv_ph _ _ _ _ _ I t c aid sq dl PhExpired ses); auto; [intros m o []|rewrite app_nil_r; exact H5|intros _; apply H6; discriminate].
      * destruct (dmem Z.eqb sq (c_ackq s)).
        -- injection ST as ST. set (s1 := set_ackq (ddel Z.eqb sq (c_ackq s)) s) in *.
           assert (G1 : good s1 tr) by (split; [unfold cinv; cbn; apply inv_del; exact I|auto]).
           eapply (inv_after s1 tr t _ false ses s' os G1 E ST); [|cbn [t_call]; exact H2]. intros _. unfold meaning. cbn [snd fst]. exists c, n, k, dl. split; [exact B|]. split; [exact H1|]. split; [exact H5|]. apply H6. discriminate.
        -- injection ST as <- <-. cbn [stamp map]. split; [|apply news_one; exact Logic.I]. split; [exact (inv_finish _ _ _ _ _ I E)|].
           rewrite sends_quiet by (apply quiet_one; exact Logic.I). rewrite (set_pc_eq _ _ _ _ E). auto.
    + assert (PH : Some (set_pc t (PWait h f dl PhExpiring) (set_w (cancel_fut f (c_w s)) s), []) = Some (s', os) -> good s' (tr ++ stamp (c_now s) os) /\ news tr (stamp (c_now s) os)).
      { intros [= <- <-]. cbn [stamp map]. split; [|apply news_nil]. rewrite (set_pc_eq _ _ _ (mkT c (PWait h f dl ph))), app_nil_r by exact E. split; [|auto]. unfold cinv. cbn.
        apply (inv_pc _ _ _ _ _ I t _ _ E). discriminate. }
      destruct (nth_error (w_futs (c_w s)) f) as [[|v|]|], ph; try discriminate; try (eapply POP; [exact ST|exact Logic.I]); apply PH; exact ST.
  - (* cancel *)
    destruct (nth_error (c_tasks s) t) as [[c p]|] eqn:E; [|discriminate]. cbn [t_pc] in ST. destruct p as [aid sq dl ph ses|h f dl ph| |]; cbn [cancel] in ST; try discriminate.
    + injection ST as <- <-. cbn [stamp map]. split; [|apply news_one; exact Logic.I]. split; [exact (inv_finish _ _ _ _ _ I E)|].
      rewrite sends_quiet by (apply quiet_one; exact Logic.I). rewrite (set_pc_eq _ _ _ _ E). auto.
    + injection ST as <- <-. cbn [stamp map]. split; [|apply news_nil]. rewrite (set_pc_eq _ _ _ (mkT c (PWait h f dl ph))), app_nil_r by exact E. split; [|auto]. unfold cinv. cbn.
      apply (inv_pc _ _ _ _ _ I t _ _ E). discriminate.
  - (* keep-alive *)
    destruct (c_ka s) as [d|]; [|discriminate]. destruct (d <=? c_now s); [|discriminate].
    destruct (new_msg _ _) as [m|]; [|discriminate]. destruct (compose m) as [bs|]; [|discriminate]. injection ST as <- <-.
    assert (Q : quiet (stamp (c_now s) (conn_send None bs s))).
    { intros n ob. unfold conn_send. destruct (c_up s); cbn; [|tauto]. intros [X|[]]. injection X as <- <-. exact Logic.I. }
    split.
    + split; [apply inv_trace; [exact I|exact Q]|]. rewrite sends_quiet by exact Q. auto.
    + apply news_trivial. intros n ob J. unfold stamp, conn_send in J. destruct (c_up s); cbn in J; [destruct J as [J|[]]; injection J as <- <-; exact Logic.I|contradiction].
Qed.

Theorem exec_good es s tr : exec conn0 es s tr -> good s tr /\ always meaning tr.
Proof.
  induction 1 as [|es s tr e s' os X [G A] ST].
  - split; [|apply always_nil]. split; [|split; reflexivity]. constructor; cbn; try (intros; destruct t; discriminate); try constructor; try (intros; contradiction); intros i; destruct i; discriminate.
  - destruct (step_good _ _ _ _ _ G ST) as [G' N]. split; [exact G'|]. apply always_app; [exact A|exact N].
Qed.
