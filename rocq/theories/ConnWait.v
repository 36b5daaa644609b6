(** Invariant of the message waiters (C32, C34-C37). *)
From Coq Require Import String ZArith List Bool Lia ZifyBool ZifyNat.
From Verif Require Import Py BitStream Schema Registry Codec SpecBits BitLemmas SpecWire SpecDecode HeaderProofs ReportProofs
  Waiter Conn SpecConn ConnLemmas ConnPacket ConnAck ConnInv ConnCases ConnProps ConnCalm.
Import ListNotations.
Open Scope list_scope.
Open Scope string_scope.
Open Scope list_scope.
Open Scope Z_scope.

(** ** which datagrams bring messages *)
Lemma brings_fun bs m m' : brings bs m -> brings bs m' -> m = m'.
Proof.
  intros [(d & c & a & D & E & _ & _ & _ & _ & C)|(d & E & D)] [(d' & c' & a' & D' & E' & _ & _ & _ & _ & C')|(d' & E' & D')]; rewrite D in D'; subst.
  - injection D' as <-. rewrite C in C'. injection C' as <- <-. reflexivity.
  - injection D' as X. discriminate.
  - injection D' as X. discriminate.
  - congruence.
Qed.
Lemma adv_in : In m_ZipND_ZipNodeAdvertisement registry. Proof. unfold registry. repeat (first [left; reflexivity | right]). Qed.
Definition silent (o : obs) : Prop := match o with OHandled _ | OErr _ => True | _ => False end.
Lemma on_packet_wait bs s s' os : bytes_ok bs -> on_packet bs s = (s', os) ->
  (exists m v w r, brings bs m /\ decode bs = Ok v /\ message_received m (c_w s) = (w, r) /\ s' = set_w w s /\
     os = match r with Err e => [OErr e] | Ok true => [OHandled true] | Ok false => [OHeard v; OHandled true] end) \/
  (c_w s' = c_w s /\ (forall m, ~ brings bs m) /\ exists o, os = [o] /\ silent o).
Proof.
  intros B E. unfold on_packet in E.
  destruct (decode bs) as [v|] eqn:D; [|right; injection E as <- <-; split; [reflexivity|]; split; [intros m [(d & c & a & D' & _)|(d & -> & D')]; rewrite D in D'; discriminate|eexists; split; [reflexivity|exact Logic.I]]].
  destruct (is_msg m_Zip_ZipPacket v) eqn:Z.
  - destruct (is_msg_true m_Zip_ZipPacket v bs zip_in B D Z) as (d & ->). destruct (zip_decoded _ _ B D). set (v := VObj (CMsg m_Zip_ZipPacket) d) in *.
    assert (F1 := zv_flag "ackResponse" ltac:(cbn; tauto)). assert (F2 := zv_flag "nackResponse" ltac:(cbn; tauto)).
    assert (F3 := zv_flag "ackRequest" ltac:(cbn; tauto)). assert (F4 := zv_flag "zwCmdIncluded" ltac:(cbn; tauto)).
    assert (NB : (flag d "ackResponse" = true \/ flag d "nackResponse" = true \/ flag d "ackRequest" = true \/ flag d "zwCmdIncluded" = false) -> forall m, ~ brings bs m).
    { intros F m [(d' & c & a & D' & _ & A1 & A2 & A3 & A4 & _)|(d' & -> & D')]; rewrite D in D'; [|injection D' as X; discriminate]. injection D' as <-. destruct F as [F|[F|[F|F]]]; congruence. }
    assert (AP : c_w (fst (ack_packet v s)) = c_w s).
    { unfold ack_packet. destruct (_ && _).
      all: destruct (to_int (getattr v "seqNo")); [|reflexivity]; destruct (dget Z.eqb a (c_ackq s)); [|reflexivity].
      1: destruct (expected_delay _); [|reflexivity]. all: cbn [c_acks set_ackq]; destruct (nth_error (c_acks s) n); reflexivity. }
    assert (AK : (forall m, ~ brings bs m) -> (let (s0, r) := ack_packet v s in (s0, [match r with Ok _ => OHandled true | Err e => OErr e end])) = (s', os) ->
       c_w s' = c_w s /\ (forall m, ~ brings bs m) /\ exists o, os = [o] /\ silent o).
    { intros N E'. destruct (ack_packet v s) as [s1 r]. injection E' as <- <-. split; [exact AP|]. split; [exact N|]. eexists; split; [reflexivity|]. destruct r; exact Logic.I. }
    assert (NOP : forall b, (forall m, ~ brings bs m) -> (s, [OHandled b]) = (s', os) -> c_w s' = c_w s /\ (forall m, ~ brings bs m) /\ exists o, os = [o] /\ silent o).
    { intros b N [= <- <-]. split; [reflexivity|]. split; [exact N|]. eexists; split; [reflexivity|exact Logic.I]. }
    destruct (truthy (getattr v "ackResponse")) eqn:C1; [right; apply AK; auto|].
    destruct (truthy (getattr v "nackResponse")) eqn:C2; [right; destruct (truthy (getattr v "nackWaiting")); [apply AK|eapply NOP]; eauto|].
    destruct (truthy (getattr v "ackRequest")) eqn:C3; [right; eapply NOP; eauto|].
    destruct (truthy (getattr v "zwCmdIncluded")) eqn:C4; [|right; eapply NOP; eauto].
    unfold command_received in E. change (match v with VObj (CMsg c) _ => if String.eqb (s_name c) (s_name m_Zip_ZipPacket) then getattr v "command" else v | _ => v end) with (getattr v "command") in E.
    destruct (getattr v "command") eqn:GC.
    all: try (cbn [message_received] in E; injection E as <- <-; right; split; [destruct s; reflexivity|]; split; [|eexists; split; [reflexivity|exact Logic.I]];
      intros mm [(d' & c' & a' & D' & -> & _ & _ & _ & _ & AG)|(d' & -> & D')]; rewrite D in D'; [|injection D' as X; discriminate]; injection D' as <-; unfold v, getattr in GC; rewrite AG in GC; discriminate).
    left. rename attrs into a. exists (VObj c a), v. destruct (message_received (VObj c a) (c_w s)) as [w r]. exists w, r. split; [|split; [reflexivity|split; [reflexivity|]]].
    + left. exists d, c, a. split; [exact D|]. split; [reflexivity|]. rewrite <- F1, <- F2, <- F3, <- F4. repeat (split; [reflexivity|]).
      unfold v, getattr in GC. destruct (aget "command" d) as [x|] eqn:AG; [congruence|]. vm_compute in GC. discriminate.
    + destruct r as [[]|]; injection E as <- <-; split; reflexivity.
  - assert (NZ : forall d, v <> VObj (CMsg m_Zip_ZipPacket) d) by (intros d ->; vm_compute in Z; discriminate).
    destruct (is_msg m_ZipND_ZipNodeAdvertisement v) eqn:ZN.
    + destruct (is_msg_true _ v bs adv_in B D ZN) as (d & ->).
      change (is_msg m_Zip_ZipKeepAlive (VObj (CMsg m_ZipND_ZipNodeAdvertisement) d)) with false in E. cbv iota in E.
      unfold command_received in E. change (String.eqb (s_name m_ZipND_ZipNodeAdvertisement) (s_name m_Zip_ZipPacket)) with false in E. cbv iota in E.
      left. exists (VObj (CMsg m_ZipND_ZipNodeAdvertisement) d), (VObj (CMsg m_ZipND_ZipNodeAdvertisement) d).
      destruct (message_received _ (c_w s)) as [w r]. exists w, r. split; [right; eauto|]. split; [reflexivity|]. split; [reflexivity|]. destruct r as [[]|]; injection E as <- <-; split; reflexivity.
    + right. assert (N : forall m, ~ brings bs m).
      { intros m [(d & c & a & D' & _)|(d & -> & D')]; rewrite D in D'; injection D' as ->; [elim (NZ _ eq_refl)|vm_compute in ZN; discriminate]. }
      destruct (is_msg m_Zip_ZipKeepAlive v); injection E as <- <-; (split; [reflexivity|]; split; [exact N|]; eexists; split; [reflexivity|exact Logic.I]).
Qed.

(** ** the invariant *)
Definition slot (x : task) : option (Z * nat) :=
  match t_pc x with
  | PAck _ _ _ _ (Some f) => match wants (t_call x) with Some h => Some (h, f) | None => None end
  | PWait h f _ _ | PCancel h f => Some (h, f)
  | _ => None
  end.
(** is about to give up waiting on future [f] *)
Definition quits (x : task) (h : Z) (f : nat) : Prop := match t_pc x with PWait h' f' _ PhExpiring | PCancel h' f' => h' = h /\ f' = f | _ => False end.
(** still waits for [h], or ended by an exception before its waiting part *)
Definition holds (x : task) (h : Z) : Prop := wants (t_call x) = Some h /\
  match t_pc x with
  | PDone (RExc e) => match t_call x with CSendRecv cmd sep dep _ _ => e <> ETimeout \/ exists sq, 0 <= sq < 256 /\ send_bytes sq sep dep cmd = Err e | _ => False end
  | PDone _ => False
  | _ => True
  end.
Record winv (w : waiter) (tasks : list task) (tr : trace) : Prop := {
  wi_keys : NoDup (map fst (w_sess w));
  wi_hf : exists hf : list Z, length hf = length (w_futs w) /\ (forall h f, In (h, f) (w_sess w) -> nth_error hf f = Some h) /\
     (forall t x h f, nth_error tasks t = Some x -> slot x = Some (h, f) -> nth_error hf f = Some h) /\
     (forall f m, nth_error (w_futs w) f = Some (FDone m) -> nth_error hf f = Some (hid m));
  wi_open : forall h f m, In (h, f) (w_sess w) -> nth_error (w_futs w) f <> Some (FDone m);
  wi_fresh : forall t x h f m, nth_error tasks t = Some x -> slot x = Some (h, f) -> nth_error (w_futs w) f = Some (FDone m) -> exists n bs, since tr t (n, ORecv bs) /\ brings bs m;
  wi_quit : forall h f, In (h, f) (w_sess w) -> nth_error (w_futs w) f = Some FCancelled -> exists t x, nth_error tasks t = Some x /\ quits x h f;
  wi_hold : forall h f, In (h, f) (w_sess w) -> exists t x, nth_error tasks t = Some x /\ holds x h }.

Lemma winv_trace w tasks tr y : winv w tasks tr -> winv w tasks (tr ++ y).
Proof. intros []. constructor; auto. intros. destruct (wi_fresh0 _ _ _ _ _ H H0 H1) as (n & bs & S & B). exists n, bs. split; [apply since_app; exact S|exact B]. Qed.
(** a task moves on, possibly closing the session *)
Lemma winv_upd w tasks tr t x x' sess' : winv w tasks tr -> nth_error tasks t = Some x -> slot x' = None \/ slot x' = slot x ->
  sess' = w_sess w \/ (exists h, sess' = ddel Z.eqb h (w_sess w)) ->
  (forall h f, In (h, f) sess' -> nth_error (w_futs w) f = Some FCancelled -> quits x h f -> quits x' h f) -> (forall h f, In (h, f) sess' -> holds x h -> holds x' h) ->
  winv (mkW sess' (w_futs w)) (upd t x' tasks) tr.
Proof.
  intros [] E SL SE QU HO. assert (SUB : forall y, In y sess' -> In y (w_sess w)) by (destruct SE as [->|(h & ->)]; [auto|intros y J; apply in_ddel in J; tauto]).
  assert (SLOT : forall t1 x1 h f, nth_error (upd t x' tasks) t1 = Some x1 -> slot x1 = Some (h, f) -> exists x2, nth_error tasks t1 = Some x2 /\ slot x2 = Some (h, f)).
  { intros t1 x1 h f E1 S1. rewrite nth_upd in E1. destruct (Nat.eqb_spec t t1) as [<-|]; [|eauto]. rewrite E in E1. injection E1 as <-. destruct SL as [SL|SL]; [congruence|]. rewrite SL in S1. eauto. }
  constructor; cbn [w_sess w_futs].
  - destruct SE as [->|(h & ->)]; [assumption|apply nodup_ddel; assumption].
  - destruct wi_hf0 as (hf & L & A & B & C). exists hf. split; [exact L|]. split; [intros h f J; exact (A _ _ (SUB _ J))|]. split; [|exact C].
    intros t1 x1 h f E1 S1. destruct (SLOT _ _ _ _ E1 S1) as (x2 & E2 & S2). exact (B _ _ _ _ E2 S2).
  - intros h f m J. exact (wi_open0 _ _ _ (SUB _ J)).
  - intros t1 x1 h f m E1 S1. destruct (SLOT _ _ _ _ E1 S1) as (x2 & E2 & S2). exact (wi_fresh0 _ _ _ _ _ E2 S2).
  - intros h f J N. destruct (wi_quit0 _ _ (SUB _ J) N) as (t1 & x1 & E1 & Q). destruct (Nat.eqb_spec t t1) as [<-|NE].
    + rewrite E in E1. injection E1 as <-. exists t, x'. split; [rewrite nth_upd, Nat.eqb_refl, E; reflexivity|]. eapply QU; eassumption.
    + exists t1, x1. split; [rewrite nth_upd_other by exact NE; exact E1|exact Q].
  - intros h f J. destruct (wi_hold0 _ _ (SUB _ J)) as (t1 & x1 & E1 & Q). destruct (Nat.eqb_spec t t1) as [<-|NE].
    + rewrite E in E1. injection E1 as <-. exists t, x'. split; [rewrite nth_upd, Nat.eqb_refl, E; reflexivity|]. eapply HO; eassumption.
    + exists t1, x1. split; [rewrite nth_upd_other by exact NE; exact E1|exact Q].
Qed.
(** a quitting task cancels its future *)
Lemma winv_cancel w tasks tr t x h f : winv w tasks tr -> nth_error tasks t = Some x -> quits x h f -> winv (cancel_fut f w) tasks tr.
Proof.
  intros I E Q. unfold cancel_fut. destruct (nth_error (w_futs w) f) as [[]|] eqn:N; try exact I. destruct I.
  assert (KEEP : forall g y, nth_error (upd f FCancelled (w_futs w)) g = Some y -> (g = f /\ y = FCancelled) \/ nth_error (w_futs w) g = Some y).
  { intros g y G. rewrite nth_upd in G. destruct (Nat.eqb_spec f g) as [<-|]; [rewrite N in G; injection G as <-; auto|auto]. }
  constructor; cbn [w_sess w_futs set_fut]; auto.
  - destruct wi_hf0 as (hf & L & A & B & C). exists hf. split; [rewrite upd_length; exact L|]. split; [exact A|]. split; [exact B|]. intros g m G. destruct (KEEP _ _ G) as [[_ X]|G']; [discriminate|eauto].
  - intros h' g m J G. destruct (KEEP _ _ G) as [[_ X]|G']; [discriminate|exact (wi_open0 _ _ _ J G')].
  - intros t' x' h' g m E' S G. destruct (KEEP _ _ G) as [[_ X]|G']; [discriminate|eauto].
  - intros h' g J G. destruct (KEEP _ _ G) as [[-> _]|G']; [|eauto]. exists t, x. split; [exact E|].
    destruct wi_hf0 as (hf & _ & A & B & _). assert (SX : slot x = Some (h, f)).
    { unfold quits, slot in *. destruct (t_pc x) as [|? ? ? []|? ?|]; try contradiction; destruct Q as [-> ->]; reflexivity. }
    pose proof (A _ _ J) as A1. pose proof (B _ _ _ _ E SX) as B1. rewrite A1 in B1. injection B1 as ->. exact Q.
Qed.
(** a message is handed over *)
Lemma winv_msg w tasks tr m w' r n bs : winv w tasks tr -> brings bs m -> message_received m w = (w', r) -> (forall t x, nth_error tasks t = Some x -> exists n k, born tr t (t_call x) n k) ->
  winv w' tasks (tr ++ [(n, ORecv bs)]).
Proof.
  intros I BR E BN. apply (winv_trace _ _ _ [(n, ORecv bs)]) in I. unfold message_received in E. destruct m; try (injection E as <- _; exact I).
  set (m := VObj c attrs) in *. destruct (dget Z.eqb (hid m) (w_sess w)) as [f|] eqn:D; [|injection E as <- _; exact I].
  assert (POP : winv (pop_sess (hid m) w) tasks (tr ++ [(n, ORecv bs)])).
  { destruct I. constructor; cbn [pop_sess w_sess w_futs]; auto.
    - apply nodup_ddel. assumption.
    - destruct wi_hf0 as (hf & L & A & R). exists hf. split; [exact L|]. split; [|exact R]. intros h g J. apply in_ddel in J as [J _]. auto.
    - intros h g m' J. apply in_ddel in J as [J _]. eauto.
    - intros h g J. apply in_ddel in J as [J _]. eauto.
    - intros h g J. apply in_ddel in J as [J _]. eauto. }
  destruct (nth_error (w_futs w) f) as [[]|] eqn:N; try (injection E as <- _; exact POP). injection E as <- _. pose proof (wi_hf _ _ _ I) as HF. destruct POP.
  assert (KEEP : forall g y, nth_error (upd f (FDone m) (w_futs w)) g = Some y -> (g = f /\ y = FDone m) \/ nth_error (w_futs w) g = Some y).
  { intros g y G. rewrite nth_upd in G. destruct (Nat.eqb_spec f g) as [<-|]; [rewrite N in G; injection G as <-; auto|auto]. }
  cbn [pop_sess w_sess w_futs] in *. constructor; cbn [pop_sess w_sess w_futs set_fut]; auto.
  - destruct HF as (hf & L & A & B & C). exists hf. split; [rewrite upd_length; exact L|]. split; [intros h g J; apply in_ddel in J as [J _]; auto|]. split; [exact B|].
    intros g m' G. destruct (KEEP _ _ G) as [[-> X]|G']; [injection X as ->; apply A; apply dget_in; exact D|eauto].
  - intros h g m' J G. destruct (KEEP _ _ G) as [[-> X]|G']; [|exact (wi_open0 _ _ _ J G')]. apply in_ddel in J as [J NH]. cbn [fst] in NH.
    destruct HF as (hf & _ & A & _). pose proof (A _ _ J) as A1. rewrite (A _ _ (dget_in _ _ _ D)) in A1. apply NH. change (h = hid m). congruence.
  - intros t x h g m' E' S G. destruct (KEEP _ _ G) as [[-> X]|G']; [|eauto]. injection X as ->. destruct (BN _ _ E') as (n0 & k & B). exists n, bs. split; [eapply since_new; [exact B|left; reflexivity]|exact BR].
  - intros h g J G. destruct (KEEP _ _ G) as [[_ X]|G']; [discriminate|]. eauto.
Qed.
(** a call opens a session *)
Lemma add_session_spec h w f w' : NoDup (map fst (w_sess w)) -> (forall h f, In (h, f) (w_sess w) -> (f < length (w_futs w))%nat) -> add_session h w = (f, w') ->
  (w' = w /\ dget Z.eqb h (w_sess w) = Some f) \/ (dget Z.eqb h (w_sess w) = None /\ f = length (w_futs w) /\ w' = mkW (w_sess w ++ [(h, f)]) (w_futs w ++ [FPending])).
Proof.
  intros N L E. unfold add_session in E. destruct (dget Z.eqb h (w_sess w)) as [g|] eqn:D.
  - injection E as <- <-. auto.
  - injection E as <- <-. right. rewrite dset_fresh by exact D. auto.
Qed.
Lemma winv_bound w tasks tr h f : winv w tasks tr -> In (h, f) (w_sess w) -> (f < length (w_futs w))%nat.
Proof. intros [] J. destruct wi_hf0 as (hf & L & A & _). rewrite <- L. exact (nth_lt _ _ _ (A _ _ J)). Qed.
Lemma winv_open w tasks tr h f w' x : winv w tasks tr -> add_session h w = (f, w') -> slot x = None \/ slot x = Some (h, f) -> holds x h -> winv w' (tasks ++ [x]) tr.
Proof.
  intros I E SL HX. pose proof (fun h f => winv_bound w tasks tr h f I) as BD. pose proof I as []. destruct (add_session_spec _ _ _ _ wi_keys0 BD E) as [[-> D]|(D & -> & ->)].
  - assert (SLOT : forall t1 x1 h1 f1, nth_error (tasks ++ [x]) t1 = Some x1 -> slot x1 = Some (h1, f1) -> (exists x2, nth_error tasks t1 = Some x2 /\ slot x2 = Some (h1, f1)) \/ (h1 = h /\ f1 = f)).
    { intros t1 x1 h1 f1 E1 S1. rewrite nth_snoc in E1. destruct (Nat.eqb t1 _); [injection E1 as <-|eauto]. right. destruct SL; [congruence|]. rewrite H in S1. injection S1 as <- <-. auto. }
    constructor; auto.
    + destruct wi_hf0 as (hf & L & A & B & C). exists hf. split; [exact L|]. split; [exact A|]. split; [|exact C]. intros t1 x1 h1 f1 E1 S1. destruct (SLOT _ _ _ _ E1 S1) as [(x2 & E2 & S2)|[-> ->]]; [eauto|]. apply A. apply dget_in. exact D.
    + intros t1 x1 h1 f1 m E1 S1 N. destruct (SLOT _ _ _ _ E1 S1) as [(x2 & E2 & S2)|[-> ->]]; [eauto|]. elim (wi_open0 _ _ m (dget_in _ _ _ D)). exact N.
    + intros h1 f1 J N. destruct (wi_quit0 _ _ J N) as (t1 & x1 & E1 & Q). exists t1, x1. split; [rewrite nth_error_app1; [exact E1|exact (nth_lt _ _ _ E1)]|exact Q].
    + intros h1 f1 J. destruct (wi_hold0 _ _ J) as (t1 & x1 & E1 & Q). exists t1, x1. split; [rewrite nth_error_app1; [exact E1|exact (nth_lt _ _ _ E1)]|exact Q].
  - assert (SLOT : forall t1 x1 h1 f1, nth_error (tasks ++ [x]) t1 = Some x1 -> slot x1 = Some (h1, f1) -> (exists x2, nth_error tasks t1 = Some x2 /\ slot x2 = Some (h1, f1)) \/ (h1 = h /\ f1 = length (w_futs w))).
    { intros t1 x1 h1 f1 E1 S1. rewrite nth_snoc in E1. destruct (Nat.eqb t1 _); [injection E1 as <-|eauto]. right. destruct SL; [congruence|]. rewrite H in S1. injection S1 as <- <-. auto. }
    assert (FUT : forall g y, nth_error (w_futs w ++ [FPending]) g = Some y -> y = FPending \/ nth_error (w_futs w) g = Some y).
    { intros g y G. rewrite nth_snoc in G. destruct (Nat.eqb g _); [injection G as <-; auto|auto]. }
    constructor; cbn [w_sess w_futs].
    + rewrite map_app. apply nodup_snoc; [assumption|]. apply dget_none. exact D.
    + destruct wi_hf0 as (hf & L & A & B & C). exists (hf ++ [h]). assert (OLD : forall g y, nth_error hf g = Some y -> nth_error (hf ++ [h]) g = Some y) by (intros g y G; rewrite nth_error_app1; [exact G|exact (nth_lt _ _ _ G)]).
      assert (NEW : nth_error (hf ++ [h]) (length (w_futs w)) = Some h) by (rewrite nth_snoc, L, Nat.eqb_refl; reflexivity).
      split; [rewrite !app_length, L; reflexivity|]. split; [intros h1 f1 J; apply in_app_iff in J as [J|[J|[]]]; [auto|injection J as <- <-; exact NEW]|].
      split; [intros t1 x1 h1 f1 E1 S1; destruct (SLOT _ _ _ _ E1 S1) as [(x2 & E2 & S2)|[-> ->]]; [eauto|exact NEW]|]. intros g m G. destruct (FUT _ _ G); [discriminate|auto].
    + intros h1 f1 m J G. destruct (FUT _ _ G) as [|G']; [discriminate|]. apply in_app_iff in J as [J|[J|[]]]; [exact (wi_open0 _ _ _ J G')|]. injection J as <- <-. apply nth_lt in G'. lia.
    + intros t1 x1 h1 f1 m E1 S1 G. destruct (FUT _ _ G) as [|G']; [discriminate|]. destruct (SLOT _ _ _ _ E1 S1) as [(x2 & E2 & S2)|[-> ->]]; [eauto|]. apply nth_lt in G'. lia.
    + intros h1 f1 J G. destruct (FUT _ _ G) as [|G']; [discriminate|]. apply in_app_iff in J as [J|[J|[]]]; [|injection J as <- <-; apply nth_lt in G'; lia].
      destruct (wi_quit0 _ _ J G') as (t1 & x1 & E1 & Q). exists t1, x1. split; [rewrite nth_error_app1; [exact E1|exact (nth_lt _ _ _ E1)]|exact Q].
    + intros h1 f1 J. apply in_app_iff in J as [J|[J|[]]].
      * destruct (wi_hold0 _ _ J) as (t1 & x1 & E1 & Q). exists t1, x1. split; [rewrite nth_error_app1; [exact E1|exact (nth_lt _ _ _ E1)]|exact Q].
      * injection J as <- <-. exists (length tasks), x. split; [rewrite nth_snoc, Nat.eqb_refl; reflexivity|exact HX].
Qed.
(** a call without session *)
Lemma winv_plain w tasks tr x : winv w tasks tr -> slot x = None -> winv w (tasks ++ [x]) tr.
Proof.
  intros [] SL. assert (SLOT : forall t1 x1 h1 f1, nth_error (tasks ++ [x]) t1 = Some x1 -> slot x1 = Some (h1, f1) -> exists x2, nth_error tasks t1 = Some x2 /\ slot x2 = Some (h1, f1)).
  { intros t1 x1 h1 f1 E1 S1. rewrite nth_snoc in E1. destruct (Nat.eqb t1 _); [injection E1 as <-; congruence|eauto]. }
  constructor; auto.
  - destruct wi_hf0 as (hf & L & A & B & C). exists hf. split; [exact L|]. split; [exact A|]. split; [|exact C]. intros t1 x1 h1 f1 E1 S1. destruct (SLOT _ _ _ _ E1 S1) as (x2 & E2 & S2). eauto.
  - intros t1 x1 h1 f1 m E1 S1 N. destruct (SLOT _ _ _ _ E1 S1) as (x2 & E2 & S2). eauto.
  - intros h1 f1 J N. destruct (wi_quit0 _ _ J N) as (t1 & x1 & E1 & Q). exists t1, x1. split; [rewrite nth_error_app1; [exact E1|exact (nth_lt _ _ _ E1)]|exact Q].
  - intros h1 f1 J. destruct (wi_hold0 _ _ J) as (t1 & x1 & E1 & Q). exists t1, x1. split; [rewrite nth_error_app1; [exact E1|exact (nth_lt _ _ _ E1)]|exact Q].
Qed.
