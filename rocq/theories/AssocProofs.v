(** Proofs about the interviews of associations and sensors: requests and tasks belong together. *)
From Coq Require Import String ZArith List Bool Lia.
From Verif Require Import Py Schema Registry Codec Waiter Conn ConnLemmas NodeReq SpecNodeReq NodeReqProofs NodeFresh NodeM CmdClass ClassProofs AssocM SpecAssoc.
From Verif Require InterviewProofs InterviewData.
Import ListNotations.
Open Scope list_scope.
Open Scope string_scope.
Open Scope list_scope.
Open Scope Z_scope.

(** ** questions *)
Definition group_q (c : classes) (i : Z) : val := VObj (CMsg (if supports c 142 then m_MultiChannelAssociation_MultiChannelGet else m_Association_Get)) [("groupingIdentifier", VI false 1 i)].
Definition group_h (c : classes) : Z := s_hid (if supports c 142 then m_MultiChannelAssociation_MultiChannelReport else m_Association_Report).
Definition scale_q (k : Z) : val := VObj (CMsg m_SensorMultilevel_SupportedGetScale) [("sensorType", VI false 1 k)].
Definition wq (c : classes) (w : pwait) : val :=
  match w with
  | PGet => VObj (CMsg m_Association_GroupingsGet) []
  | PGroup i _ _ => group_q c i
  | PLast => group_q c 1
  | PSensors _ => VObj (CMsg m_SensorMultilevel_SupportedGetSensor) []
  | PScale k _ => scale_q k
  end.
Definition wh (c : classes) (w : pwait) : Z :=
  match w with
  | PGet => s_hid m_Association_GroupingsReport
  | PGroup _ _ _ | PLast => group_h c
  | PSensors _ => s_hid m_SensorMultilevel_SupportedSensorReport
  | PScale _ _ => s_hid m_SensorMultilevel_SupportedScaleReport
  end.
Lemma group_new c i : new_msg (if supports c 142 then m_MultiChannelAssociation_MultiChannelGet else m_Association_Get) [("groupingIdentifier", VInt i)] = Ok (group_q c i).
Proof. unfold group_q. destruct (supports c 142); reflexivity. Qed.
Lemma ask_group_is c i w : ask_group c i w = QAsk (group_q c i) (group_h c) w.
Proof. unfold ask_group. rewrite group_new. reflexivity. Qed.
Lemma next_scale_is l : next_scale l = match l with [] => QRes (Ok tt) | k :: l' => QAsk (scale_q k) (wh (mkCls [] []) (PScale k l')) (PScale k l') end.
Proof. destruct l; reflexivity. Qed.
Definition life_q (c : classes) : val :=
  if supports c 96 && supports c 142 then VObj (CMsg m_MultiChannelAssociation_MultiChannelSet) [("groupingIdentifier", VI false 1 1); ("nodes", VNodes [(1, Some 0)])]
  else VObj (CMsg m_Association_Set) [("groupingIdentifier", VI false 1 1); ("nodes", VNodes [(1, None)])].
Lemma lifeline_is c gs : lifeline c gs =
  if supports c 94 then match dget Z.eqb 1 gs with Some g => if contains (g_nodes g) 1 0 then QRes (Ok tt) else QSend (life_q c) | None => QRes (Ok tt) end else QRes (Ok tt).
Proof. unfold lifeline, life_q. destruct (supports c 94); [|reflexivity]. destruct (dget Z.eqb 1 gs) as [g|]; [|reflexivity]. destruct (contains _ _ _); [reflexivity|]. destruct (supports c 96 && supports c 142); reflexivity. Qed.

Lemma same_bytes_eq a : forall b, same_bytes a b = true <-> a = b.
Proof.
  induction a as [|x a IH]; intros [|y b]; cbn; split; intros H; try reflexivity; try discriminate.
  - apply andb_prop in H as [A B]. apply Z.eqb_eq in A. apply IH in B. congruence.
  - injection H as -> ->. rewrite Z.eqb_refl. apply IH. reflexivity.
Qed.
Lemma says_eq q w : says q w = true <-> compose q = Ok w.
Proof. unfold says. destruct (compose q) as [l|e]; [rewrite same_bytes_eq; split; congruence|split; discriminate]. Qed.
Lemma count_wire : says (wq (mkCls [] []) PGet) count_question = true. Proof. vm_compute. reflexivity. Qed.
Lemma sensor_wire : says (wq (mkCls [] []) (PSensors (fun l => l))) sensor_question = true. Proof. vm_compute. reflexivity. Qed.
Lemma group_wire c i : byte i -> says (group_q c i) (group_question c i) = true.
Proof.
  intros B. apply says_eq. unfold group_q, group_question, supports. destruct (dmem Z.eqb 142 (n_supported c)).
  - apply (every_byte (fun i => compose (VObj (CMsg m_MultiChannelAssociation_MultiChannelGet) [("groupingIdentifier", VI false 1 i)])) (fun i => Ok [142; 2; i])); [vm_compute; reflexivity|exact B].
  - apply (every_byte (fun i => compose (VObj (CMsg m_Association_Get) [("groupingIdentifier", VI false 1 i)])) (fun i => Ok [133; 2; i])); [vm_compute; reflexivity|exact B].
Qed.
Lemma scale_wire k : byte k -> says (scale_q k) (scale_question k) = true.
Proof. intros B. apply says_eq. apply (every_byte (fun i => compose (scale_q i)) (fun i => Ok [49; 3; i])); [vm_compute; reflexivity|exact B]. Qed.
Lemma big_byte z : (0 <=? z) && (z <? 256) = false -> to_bytes z 1 false = Err EOverflow.
Proof. intros B. unfold to_bytes. replace (1 <? 0) with false by reflexivity. replace (2 ^ (8 * 1)) with 256 by reflexivity. cbv zeta. rewrite B. reflexivity. Qed.
Ltac one_byte H z := let B := fresh in destruct ((0 <=? z) && (z <? 256)) eqn:B; [unfold byte; lia|]; exfalso; apply big_byte in B;
  revert H; unfold compose, compose_with; cbn -[to_bytes Z.ltb]; change (Z.of_nat 1) with 1; unfold BitStream.addBytes; rewrite B; cbn; discriminate.
Lemma byte1 z w : compose (VObj (CMsg m_MultiChannelAssociation_MultiChannelGet) [("groupingIdentifier", VI false 1 z)]) = Ok w -> byte z. Proof. intros H. one_byte H z. Qed.
Lemma byte2 z w : compose (VObj (CMsg m_Association_Get) [("groupingIdentifier", VI false 1 z)]) = Ok w -> byte z. Proof. intros H. one_byte H z. Qed.
Lemma byte3 z w : compose (scale_q z) = Ok w -> byte z. Proof. unfold scale_q. intros H. one_byte H z. Qed.
Lemma group_inv c z i : says (group_q c z) (group_question c i) = true -> z = i.
Proof.
  intros H. pose proof H as H0. apply says_eq in H. unfold group_q in H.
  assert (B : byte z) by (destruct (supports c 142); [exact (byte1 _ _ H)|exact (byte2 _ _ H)]).
  pose proof (group_wire c z B) as W. apply says_eq in W, H0. rewrite W in H0. unfold group_question in H0. congruence.
Qed.
Lemma scale_inv z i : says (scale_q z) (scale_question i) = true -> z = i.
Proof.
  intros H. apply says_eq in H. assert (B : byte z) by (exact (byte3 _ _ H)). pose proof (scale_wire z B) as W. apply says_eq in W. rewrite W in H. unfold scale_question in H. congruence.
Qed.

(** ** what comes next *)
Definition own_q (c : classes) (a : pact) : Prop := match a with QAsk q h w => q = wq c w /\ h = wh c w | _ => True end.
Lemma own_lifeline c gs : own_q c (lifeline c gs).
Proof. rewrite lifeline_is. destruct (supports c 94); [|exact I]. destruct (dget Z.eqb 1 gs) as [g|]; [|exact I]. destruct (contains _ _ _); exact I. Qed.
Lemma own_group c gs size rest : own_q c (next_group c gs size rest).
Proof. unfold next_group. destruct (Nat.eqb _ _); [|exact I]. destruct rest; [apply own_lifeline|]. rewrite ask_group_is. split; reflexivity. Qed.
Lemma own_scale c l : own_q c (next_scale l).
Proof. rewrite next_scale_is. destruct l; [exact I|split; reflexivity]. Qed.
Lemma own_start c x : own_q c (start x).
Proof. destruct x as [|v od]; cbn; [split; reflexivity|]. destruct (v <? 5); cbn; auto. Qed.
Lemma own_got c w r gs ts gs' ts' a : got c w r gs ts = (gs', ts', a) -> own_q c a.
Proof.
  unfold got. intros H. destruct w as [|i size rest| |od|k rest], r as [m|e]; try (injection H as <- <- <-; exact I).
  - destruct (to_int _) as [n|]; injection H as <- <- <-; [apply own_group|exact I].
  - destruct (record_group i m gs) as [g [[]|[]]]; injection H as <- <- <-; try exact I; apply own_group.
  - destruct e; injection H as <- <- <-; try exact I; apply own_group.
  - destruct (record_group 1 m gs). injection H as <- <- <-. exact I.
  - destruct (getattr m "bitMask"); injection H as <- <- <-; try exact I. apply own_scale.
  - destruct (to_int _); injection H as <- <- <-; [apply own_scale|exact I].
Qed.

(** ** lists of tasks *)
Definition put (t : nat) (p : ppc) (ts : list ppc) : list ppc := if (t <? List.length ts)%nat then upd t p ts else ts ++ [p].
Lemma put_at t p ts j y : nth_error (put t p ts) j = Some y -> (t <= List.length ts)%nat -> (j = t /\ y = p) \/ (j <> t /\ nth_error ts j = Some y).
Proof.
  unfold put. destruct (Nat.ltb_spec t (List.length ts)) as [L|L]; intros H T.
  - rewrite nth_upd in H. destruct (Nat.eqb_spec t j) as [->|N]; [|auto]. destruct (nth_error ts j); [injection H as <-; auto|discriminate].
  - rewrite nth_snoc in H. destruct (Nat.eqb_spec j (List.length ts)) as [->|N]; [injection H as <-; left; split; [lia|reflexivity]|]. right. split; [|exact H].
    intros ->. lia.
Qed.
Lemma at_put t p ts : (t <= List.length ts)%nat -> nth_error (put t p ts) t = Some p.
Proof.
  intros T. unfold put. destruct (Nat.ltb_spec t (List.length ts)) as [L|L].
  - destruct (nth_error ts t) as [y|] eqn:E; [|apply nth_error_None in E; lia]. eapply nth_upd_same. exact E.
  - rewrite nth_snoc. replace (Nat.eqb t (List.length ts)) with true by (symmetry; apply Nat.eqb_eq; lia). reflexivity.
Qed.
Lemma other_put t p ts j y : nth_error ts j = Some y -> j <> t -> nth_error (put t p ts) j = Some y.
Proof.
  intros H N. unfold put. destruct (t <? List.length ts)%nat.
  - rewrite nth_upd_other; auto.
  - rewrite nth_snoc. apply nth_lt in H as L. destruct (Nat.eqb_spec j (List.length ts)); [lia|exact H].
Qed.
Lemma put_len t p ts : (List.length ts <= List.length (put t p ts))%nat /\ ((t <= List.length ts)%nat -> (t < List.length (put t p ts))%nat).
Proof.
  unfold put. destruct (Nat.ltb_spec t (List.length ts)) as [L|L].
  - rewrite upd_length. lia.
  - rewrite app_length. cbn. lia.
Qed.
Lemma upd_end (ts : list ppc) p q : upd (List.length ts) p (ts ++ [q]) = ts ++ [p].
Proof. induction ts as [|y l IH]; [reflexivity|]. cbn. f_equal. exact IH. Qed.
Lemma waiting_in u ts : forall k t w, waiting_for u k ts = Some (t, w) -> exists i, t = (k + i)%nat /\ nth_error ts i = Some (PSusp u w).
Proof.
  induction ts as [|p ts IH]; intros k t w H; [discriminate|].
  assert (N : waiting_for u (S k) ts = Some (t, w) -> exists i, t = (k + i)%nat /\ nth_error (p :: ts) i = Some (PSusp u w)).
  { intros Q. destruct (IH _ _ _ Q) as (i & -> & E). exists (S i). split; [lia|exact E]. }
  cbn in H. destruct p as [u' w'| |r]; auto. destruct (Nat.eqb_spec u' u) as [->|]; auto. injection H as <- <-. exists O. split; [lia|reflexivity].
Qed.
Lemma waiting_none u ts : forall k, waiting_for u k ts = None -> forall i w, nth_error ts i <> Some (PSusp u w).
Proof.
  induction ts as [|p ts IH]; intros k H i w E; [destruct i; discriminate|].
  assert (N : waiting_for u (S k) ts = None).
  { cbn in H. destruct p as [u' w'| |r]; auto. destruct (Nat.eqb u' u); [discriminate|exact H]. }
  destruct i as [|i]; [|exact (IH _ N i w E)]. cbn in E. injection E as ->. cbn in H. rewrite Nat.eqb_refl in H. discriminate.
Qed.

(** ** the trace of the requests *)
Definition nets (tr : ptrace) : ntrace := flat_map (fun x => match x with (n, PONet o) => [(n, o)] | _ => [] end) tr.
Lemma nets_app a b : nets (a ++ b) = nets a ++ nets b. Proof. apply flat_map_app. Qed.
Lemma nets_map T os : nets (pstamp T (map PONet os)) = nstamp T os.
Proof. induction os as [|o os IH]; [reflexivity|]. cbn. f_equal. exact IH. Qed.
Lemma stamp_app T a b : pstamp T (a ++ b) = pstamp T a ++ pstamp T b. Proof. apply map_app. Qed.
Lemma in_stamp T n os o : In (n, o) (pstamp T os) <-> n = T /\ In o os.
Proof. unfold pstamp. rewrite in_map_iff. split; [intros (x & E & J); injection E as <- <-; auto|intros [-> J]; eauto]. Qed.
Lemma in_nets n o tr : In (n, o) (nets tr) <-> In (n, PONet o) tr.
Proof.
  unfold nets. rewrite in_flat_map. split.
  - intros ([n2 o2] & J & K). destruct o2; try (destruct K; fail). destruct K as [K|[]]. injection K as -> ->. exact J.
  - intros J. exists (n, PONet o). split; [exact J|]. left. reflexivity.
Qed.

(** ** steps *)
(** what starts a piece of a coroutine: an answer, a call, or the end of a command; [hd] is what is seen of it *)
Inductive turn (s : pstate) : pevent -> nstate -> list nobs -> nat -> list pobs -> groupings -> list (Z * Z) -> pact -> Prop :=
| T_ans e n osn u r t w gs ts a : nstep (p_net s) e = Some (n, osn) -> returned osn = Some (u, r) -> nth_error (p_tasks s) t = Some (PSusp u w) ->
    got (p_cls s) w (value_of r) (p_groups s) (p_types s) = (gs, ts, a) -> turn s (PNet e) n osn t [] gs ts a
| T_call x : turn s (PCall x) (p_net s) [] (List.length (p_tasks s)) [POCall (List.length (p_tasks s)) x] (p_groups s) (p_types s) (start x)
| T_sent t r : nth_error (p_tasks s) t = Some PSending ->
    turn s (PSent t r) (p_net s) [] t [POSent t r] (p_groups s) (p_types s) (match r with Ok _ => ask_group (p_cls s) 1 PLast | Err e => QRes (Err e) end).
(** how it goes on *)
Definition next (n : nstate) : nat := List.length (n_tasks n).
Definition tail_of (n : nstate) (t : nat) (a : pact) : list pobs :=
  match a with QAsk q h w => [POAsk t (next n) q; PONet (NCall (next n) (NReq h 3000))] | QSend q => [POSend t q] | QRes r => [PODone t r] end.
Definition pc_of (n : nstate) (a : pact) : ppc := match a with QAsk _ _ w => PSusp (next n) w | QSend _ => PSending | QRes r => PEnd r end.
Definition net_after (n : nstate) (a : pact) (n' : nstate) : Prop :=
  match a with QAsk q h w => nstep n (NEvCall (NReq h 3000)) = Some (n', [NCall (next n) (NReq h 3000)]) | _ => n' = n end.
Lemma perform_is t a n c gs ts l s' os : perform t a (mkP n c gs ts l) = (s', os) ->
  exists n', net_after n a n' /\ s' = mkP n' c gs ts (upd t (pc_of n a) l) /\ os = tail_of n t a.
Proof.
  unfold perform. destruct a as [q h w|q|r]; [|intros E; injection E as <- <-; exists n; repeat split..].
  cbn [p_net nstep]. destruct (add_session h (n_w n)) as [f w'] eqn:A. intros E. injection E as <- <-. eexists. split; [|split; reflexivity]. cbn [net_after nstep]. rewrite A. reflexivity.
Qed.
Definition quiet_step (s : pstate) (e : pevent) (s' : pstate) (os : list pobs) : Prop :=
  exists e' n osn, e = PNet e' /\ nstep (p_net s) e' = Some (n, osn) /\ s' = mkP n (p_cls s) (p_groups s) (p_types s) (p_tasks s) /\ os = map PONet osn /\
    (forall u r t w, In (NRet u r) osn -> nth_error (p_tasks s) t <> Some (PSusp u w)).
Definition busy_step (s : pstate) (e : pevent) (s' : pstate) (os : list pobs) : Prop :=
  exists n osn t hd gs ts a n', turn s e n osn t hd gs ts a /\ net_after n a n' /\ s' = mkP n' (p_cls s) gs ts (put t (pc_of n a) (p_tasks s)) /\ os = map PONet osn ++ hd ++ tail_of n t a.
Lemma step_cases s e s' os : pstep s e = Some (s', os) -> quiet_step s e s' os \/ busy_step s e s' os.
Proof.
  intros H. destruct e as [e|x|t r]; cbn [pstep] in H.
  - destruct (nstep (p_net s) e) as [[n osn]|] eqn:E; [|discriminate]. cbn [p_tasks p_cls p_groups p_types] in H. injection H as H.
    destruct (InterviewProofs.one_return _ _ _ _ E) as [[R NR]|(pre & u & r & -> & R & NP & NN)].
    + change (returned osn = None) in R. rewrite R in H. injection H as <- <-. left. exists e, n, osn. repeat (split; [reflexivity || exact E|]). intros u r t w J. destruct (NR u r J).
    + change (returned (pre ++ [NRet u r]) = Some (u, r)) in R. rewrite R in H. destruct (waiting_for u 0 (p_tasks s)) as [[t w]|] eqn:W.
      * right. destruct (waiting_in _ _ _ _ _ W) as (i & TI & Q). cbn in TI. subst i. destruct (got (p_cls s) w (value_of r) (p_groups s) (p_types s)) as [[gs ts] a] eqn:G.
        destruct (perform t a _) as [s1 os1] eqn:P in H. injection H as <- <-. apply perform_is in P as (n' & P1 & -> & ->).
        exists n, (pre ++ [NRet u r]), t, [], gs, ts, a, n'. split; [eapply T_ans; eassumption|]. split; [exact P1|].
        assert (PU : put t (pc_of n a) (p_tasks s) = upd t (pc_of n a) (p_tasks s)) by (unfold put; apply nth_lt in Q; destruct (Nat.ltb_spec t (List.length (p_tasks s))); [reflexivity|lia]). rewrite PU. auto.
      * left. injection H as <- <-. exists e, n, (pre ++ [NRet u r]). repeat (split; [reflexivity || exact E|]). intros u' r' t w J.
        apply in_app_or in J as [J|[J|[]]]; [destruct (NP _ _ J)|]. injection J as <- <-. exact (waiting_none _ _ _ W t w).
  - right. destruct (perform _ (start x) _) as [s1 os1] eqn:P in H. injection H as <- <-. apply perform_is in P as (n' & P1 & -> & ->). do 8 eexists. split; [apply T_call|]. split; [exact P1|].
    rewrite upd_end. unfold put. destruct (Nat.ltb_spec (List.length (p_tasks s)) (List.length (p_tasks s))); [lia|]. split; reflexivity.
  - right. destruct (nth_error (p_tasks s) t) as [[| |]|] eqn:Q; try discriminate. destruct (perform t _ s) as [s1 os1] eqn:P in H. injection H as <- <-. destruct s as [sn sc sg st sl].
    apply perform_is in P as (n' & P1 & -> & ->). do 8 eexists. split; [apply T_sent; exact Q|]. cbn [p_cls p_net p_groups p_types p_tasks] in *. split; [exact P1|].
    unfold put. apply nth_lt in Q. destruct (Nat.ltb_spec t (List.length sl)); [|lia]. split; reflexivity.
Qed.
Lemma turn_own s e n osn t hd gs ts a : turn s e n osn t hd gs ts a -> own_q (p_cls s) a.
Proof. intros [e0 n0 osn0 u r t0 w gs0 ts0 a0 _ _ _ G|x|t0 [b|x] Q]; [exact (own_got _ _ _ _ _ _ _ _ G)|apply own_start|rewrite ask_group_is; split; reflexivity|exact I]. Qed.
Lemma turn_len s e n osn t hd gs ts a : turn s e n osn t hd gs ts a -> (t <= List.length (p_tasks s))%nat.
Proof. intros [e0 n0 osn0 u r t0 w gs0 ts0 a0 _ _ Q _|x|t0 r Q]; try (apply nth_lt in Q; lia). lia. Qed.
Lemma turn_net s e n osn t hd gs ts a : turn s e n osn t hd gs ts a ->
  n_now n = n_now (p_net s) /\ nets (pstamp (n_now (p_net s)) hd) = [] /\ (forall t' u q, ~ In (POAsk t' u q) hd) /\ (forall o, ~ In (PONet o) hd) /\
  ((n = p_net s /\ osn = [] /\ forall u w, nth_error (p_tasks s) t <> Some (PSusp u w)) \/
   exists e' u r w, e = PNet e' /\ nstep (p_net s) e' = Some (n, osn) /\ nth_error (p_tasks s) t = Some (PSusp u w) /\
     returned osn = Some (u, r) /\ (forall u' r', In (NRet u' r') osn -> u' = u /\ r' = r) /\ In (NRet u r) osn).
Proof.
  intros [e0 n0 osn0 u r t0 w gs0 ts0 a0 ST R Q G|x|t0 r Q].
  - destruct (InterviewProofs.one_return _ _ _ _ ST) as [[R' _]|(pre & u0 & r0 & -> & R' & NP & NN)]; [change (returned osn0 = None) in R'; congruence|].
    change (returned (pre ++ [NRet u0 r0]) = Some (u0, r0)) in R'. rewrite R in R'. injection R' as <- <-. split; [exact NN|]. split; [reflexivity|]. split; [intros ? ? ? []|]. split; [intros ? []|]. right.
    exists e0, u, r, w. do 4 (split; [auto|]). split; [|apply in_or_app; right; left; reflexivity].
    intros u' r' J. apply in_app_or in J as [J|[J|[]]]; [destruct (NP _ _ J)|]. injection J as <- <-. auto.
  - split; [reflexivity|]. split; [reflexivity|]. split; [intros ? ? ? [J|[]]; discriminate|]. split; [intros ? [J|[]]; discriminate|]. left. split; [reflexivity|]. split; [reflexivity|]. intros u w J. apply nth_lt in J. lia.
  - split; [reflexivity|]. split; [reflexivity|]. split; [intros ? ? ? [J|[]]; discriminate|]. split; [intros ? [J|[]]; discriminate|]. left. split; [reflexivity|]. split; [reflexivity|]. intros u w J. congruence.
Qed.

(** ** requests and tasks belong together *)
Record linked (s : pstate) (tr : ptrace) : Prop := mkLinked {
  l_net : exists es, nexec nstate0 es (p_net s) (nets tr);
  l_susp : forall t u w, nth_error (p_tasks s) t = Some (PSusp u w) -> exists p n,
    nth_error (n_tasks (p_net s)) u = Some (mkNT (NReq (wh (p_cls s) w) 3000) p) /\ (forall r, p <> NDone r) /\ In (n, POAsk t u (wq (p_cls s) w)) tr;
  l_uniq : forall t t' u w w', nth_error (p_tasks s) t = Some (PSusp u w) -> nth_error (p_tasks s) t' = Some (PSusp u w') -> t = t';
  l_ask : forall n t u q, In (n, POAsk t u q) tr -> (u < List.length (n_tasks (p_net s)))%nat /\
    ((exists w, nth_error (p_tasks s) t = Some (PSusp u w) /\ q = wq (p_cls s) w) \/ exists n r, In (n, PONet (NRet u r)) tr) }.
Lemma nets_tail T n t a : nets (pstamp T (tail_of n t a)) = match a with QAsk q h w => nstamp T [NCall (next n) (NReq h 3000)] | _ => [] end.
Proof. destruct a; reflexivity. Qed.
Lemma linked_step s tr e s' os : linked s tr -> pstep s e = Some (s', os) -> linked s' (tr ++ pstamp (n_now (p_net s)) os).
Proof.
  intros L H. pose proof (l_net _ _ L) as [es X]. set (T := n_now (p_net s)) in *.
  destruct (step_cases s e s' os H) as [(e' & n & osn & -> & ST & -> & -> & NW)|(n & osn & t & hd & gs & ts & a & n' & TN & NA & -> & ->)].
  - destruct (step_tasks _ _ _ _ ST) as (KT & LN & _). constructor; cbn [p_net p_tasks p_cls].
    + exists (es ++ [e']). rewrite nets_app, nets_map. econstructor; eassumption.
    + intros t u w Q. destruct (l_susp _ _ L t u w Q) as (p & n0 & S1 & S2 & S3).
      destruct (InterviewProofs.net_keep _ _ _ _ u _ p ST S1 S2) as (p' & P1 & P2); [intros r J; exact (NW u r t w J Q)|]. exists p', n0. split; [exact P1|]. split; [exact P2|]. apply in_or_app. auto.
    + exact (l_uniq _ _ L).
    + intros n0 t u q J. apply in_app_or in J as [J|J].
      * destruct (l_ask _ _ L n0 t u q J) as [A B]. split; [lia|]. destruct B as [B|(n1 & r & B)]; [left; exact B|right; exists n1, r; apply in_or_app; auto].
      * apply in_stamp in J as [_ J]. apply in_map_iff in J as (? & ? & _). discriminate.
  - destruct (turn_net _ _ _ _ _ _ _ _ _ TN) as (NT & HN & HA & _ & NS). pose proof (turn_len _ _ _ _ _ _ _ _ _ TN) as TL. pose proof (turn_own _ _ _ _ _ _ _ _ _ TN) as OQ.
    assert (X1 : exists es, nexec nstate0 es n (nets tr ++ nstamp T osn)).
    { destruct NS as [(-> & -> & _)|(e' & u & r & w & _ & ST & _)]; [exists es; cbn; rewrite app_nil_r; exact X|exists (es ++ [e']); econstructor; eassumption]. }
    assert (K1 : forall u c p, nth_error (n_tasks (p_net s)) u = Some (mkNT c p) -> (forall r, p <> NDone r) -> (forall w, nth_error (p_tasks s) t <> Some (PSusp u w)) ->
                 exists p', nth_error (n_tasks n) u = Some (mkNT c p') /\ forall r, p' <> NDone r).
    { intros u c p E N NW. destruct NS as [(-> & -> & _)|(e' & u' & r' & w & _ & ST & Q & _ & ONE & _)]; [eauto|].
      eapply InterviewProofs.net_keep; try eassumption. intros r J. apply ONE in J as [-> _]. exact (NW w Q). }
    assert (LN : (List.length (n_tasks (p_net s)) <= next n)%nat).
    { unfold next. destruct NS as [(-> & _)|(e' & u' & r' & w & _ & ST & _)]; [lia|]. destruct (step_tasks _ _ _ _ ST) as (_ & Q & _). lia. }
    assert (LN' : (next n <= List.length (n_tasks n'))%nat /\ (forall q h w, a = QAsk q h w -> (next n < List.length (n_tasks n'))%nat)).
    { unfold next. destruct a as [q h w|q|r]; cbn [net_after] in NA; try (subst n'; split; [lia|intros; discriminate]). destruct (step_tasks _ _ _ _ NA) as (_ & Q & _). split; [|intros]; lia. }
    assert (K2 : forall u c p, nth_error (n_tasks n) u = Some (mkNT c p) -> (forall r, p <> NDone r) -> exists p', nth_error (n_tasks n') u = Some (mkNT c p') /\ forall r, p' <> NDone r).
    { intros u c p E N. destruct a as [q h w|q|r]; cbn [net_after] in NA; try (subst n'; eauto). eapply InterviewProofs.net_keep; try eassumption. intros r [J|[]]. discriminate. }
    assert (OLD : forall n0 t' u q, In (n0, POAsk t' u q) tr -> (u < List.length (n_tasks (p_net s)))%nat /\
       ((exists w, t' <> t /\ nth_error (p_tasks s) t' = Some (PSusp u w) /\ q = wq (p_cls s) w) \/ exists n1 r, In (n1, PONet (NRet u r)) (tr ++ pstamp T (map PONet osn ++ hd ++ tail_of n t a)))).
    { intros n0 t' u q J. destruct (l_ask _ _ L n0 t' u q J) as [A B]. split; [exact A|]. destruct B as [(w & B1 & B2)|(n1 & r & B)]; [|right; exists n1, r; apply in_or_app; auto].
      destruct (Nat.eq_dec t' t) as [->|N]; [|left; exists w; auto].
      destruct NS as [(_ & _ & NW)|(e' & u' & r' & w' & _ & ST & Q & _ & _ & IR)]; [destruct (NW _ _ B1)|]. rewrite Q in B1. injection B1 as <- <-. right. exists T, r'. apply in_or_app. right. apply in_stamp. split; [reflexivity|].
      apply in_or_app. left. apply in_map. exact IR. }
    constructor; cbn [p_net p_tasks p_cls].
    + destruct X1 as [es1 X1]. fold T in HN. rewrite nets_app, !stamp_app, !nets_app, nets_map, HN. cbn [app]. rewrite nets_tail, app_assoc. destruct a as [q h w|q|r]; cbn [net_after] in NA.
      * exists (es1 ++ [NEvCall (NReq h 3000)]). assert (Y : nexec nstate0 (es1 ++ [NEvCall (NReq h 3000)]) n' ((nets tr ++ nstamp T osn) ++ nstamp (n_now n) [NCall (next n) (NReq h 3000)])) by (econstructor; eassumption).
        rewrite NT in Y. exact Y.
      * subst n'. exists es1. rewrite app_nil_r. exact X1.
      * subst n'. exists es1. rewrite app_nil_r. exact X1.
    + intros t' u w Q. destruct (put_at _ _ _ _ _ Q TL) as [[-> Y]|[N Y]].
      * destruct a as [q h w'|q|r]; try discriminate Y. cbn [pc_of] in Y. injection Y as -> ->. destruct OQ as [-> ->]. cbn [net_after] in NA.
        destruct (step_tasks _ _ _ _ NA) as (KT & LN3 & NC & _). destruct (NC _ eq_refl) as [_ ([cy py] & Y1 & Y2)]. cbn in Y2. subst cy. fold (next n) in Y1. exists py, T. split; [exact Y1|]. split.
        -- intros r ->. destruct (InterviewProofs.done_ret _ _ _ _ NA (next n) _ r Y1 eq_refl) as [Q'|[Q'|[]]]; [apply nth_lt in Q'; unfold next in *; lia|discriminate].
        -- apply in_or_app. right. apply in_stamp. split; [reflexivity|]. do 2 (apply in_or_app; right). left. reflexivity.
      * destruct (l_susp _ _ L t' u w Y) as (p & n0 & S1 & S2 & S3).
        destruct (K1 u _ p S1 S2) as (p1 & P1 & P2); [intros w' Q'; apply N; exact (l_uniq _ _ L _ _ _ _ _ Y Q')|]. destruct (K2 u _ p1 P1 P2) as (p2 & P3 & P4). exists p2, n0. split; [exact P3|]. split; [exact P4|]. apply in_or_app. auto.
    + assert (FR : forall t' u w, nth_error (p_tasks s) t' = Some (PSusp u w) -> (u < next n)%nat).
      { intros t' u w Y. destruct (l_susp _ _ L t' u w Y) as (p & n0 & S1 & _). apply nth_lt in S1. lia. }
      intros t1 t2 u w1 w2 Q1 Q2. destruct (put_at _ _ _ _ _ Q1 TL) as [[-> Y1]|[N1 Y1]]; destruct (put_at _ _ _ _ _ Q2 TL) as [[-> Y2]|[N2 Y2]]; auto.
      * destruct a; try discriminate Y1. injection Y1 as -> ->. specialize (FR _ _ _ Y2). lia.
      * destruct a; try discriminate Y2. injection Y2 as -> ->. specialize (FR _ _ _ Y1). lia.
      * exact (l_uniq _ _ L _ _ _ _ _ Y1 Y2).
    + intros n0 t' u q J. apply in_app_or in J as [J|J].
      * destruct (OLD _ _ _ _ J) as [A B]. split; [lia|]. destruct B as [(w & B0 & B1 & B2)|B]; [left; exists w; split; [apply other_put; assumption|exact B2]|right; exact B].
      * apply in_stamp in J as [_ J]. apply in_app_or in J as [J|J]; [apply in_map_iff in J as (? & ? & _); discriminate|]. apply in_app_or in J as [J|J]; [destruct (HA _ _ _ J)|].
        destruct a as [q' h w|q'|r]; cbn [tail_of] in J; destruct J as [J|J]; try discriminate J; try (destruct J as [J|[]]; discriminate J); try (destruct J; fail).
        injection J as <- <- <-. split; [eapply LN'; reflexivity|]. left. exists w. split; [apply at_put; exact TL|exact (proj1 OQ)].
Qed.
Lemma cls_step s e s' os : pstep s e = Some (s', os) -> p_cls s' = p_cls s.
Proof. intros H. destruct (step_cases _ _ _ _ H) as [(e' & n & osn & -> & ST & -> & -> & NW)|(n & osn & t & hd & gs & ts & a & n' & TN & NA & -> & ->)]; reflexivity. Qed.
Lemma linked_exec c gs ts es s tr : pexec (pstate0 c gs ts) es s tr -> linked s tr /\ p_cls s = c.
Proof.
  induction 1 as [|es s tr e s' os X IH ST].
  - split; [|reflexivity]. constructor; cbn; try (intros [|?]; discriminate); try (intros ? ? ? ? []). exists []. constructor.
  - destruct IH as [IH C]. split; [eapply linked_step; eassumption|]. rewrite (cls_step _ _ _ _ ST). exact C.
Qed.

(** ** answers *)
Fixpoint opens (w : list Z) (open : list nat) (tr : ptrace) : list nat :=
  match tr with
  | [] => open
  | (_, POAsk _ u q) :: tr' => opens w (if says q w then u :: open else open) tr'
  | _ :: tr' => opens w open tr'
  end.
Lemma answers_app w a : forall open b, answers_in w open (a ++ b) = answers_in w open a ++ answers_in w (opens w open a) b.
Proof.
  induction a as [|[n o] a IH]; intros open b; [reflexivity|]. cbn. destruct o as [o|t x|t u q|t q|t r|t r]; try apply IH.
  destruct o as [t c|t r|m r|t r]; try apply IH. destruct r; try apply IH. destruct (existsb (Nat.eqb t) open); [cbn; f_equal|]; apply IH.
Qed.
Lemma opens_app w a : forall open b, opens w open (a ++ b) = opens w (opens w open a) b.
Proof. induction a as [|[n o] a IH]; intros open b; [reflexivity|]. cbn. destruct o; apply IH. Qed.
Lemma opens_in w tr : forall open u, In u (opens w open tr) <-> In u open \/ exists n t q, In (n, POAsk t u q) tr /\ says q w = true.
Proof.
  induction tr as [|[n o] tr IH]; intros open u; [cbn; split; [auto|intros [H|(n & t & q & [] & _)]; exact H]|].
  assert (OTHER : (forall t u q, o <> POAsk t u q) -> In u open \/ (exists n0 t q, In (n0, POAsk t u q) tr /\ says q w = true) <-> In u open \/ exists n0 t q, In (n0, POAsk t u q) ((n, o) :: tr) /\ says q w = true).
  { intros N. split; (intros [H|(n0 & t & q & J & K)]; [auto|]); right; exists n0, t, q; (split; [|exact K]); [right; exact J|]. destruct J as [J|J]; [|exact J]. injection J as _ ->. destruct (N t u q eq_refl). }
  cbn [opens]. destruct o as [o|t x|t u' q|t q|t r|t r]; try (rewrite IH; apply OTHER; intros; discriminate).
  rewrite IH. split.
  - intros [H|(n0 & t0 & q0 & J & K)]; [|right; exists n0, t0, q0; split; [right; exact J|exact K]]. destruct (says q w) eqn:E; [|auto]. destruct H as [->|H]; [|auto].
    right. exists n, t, q. split; [left; reflexivity|exact E].
  - intros [H|(n0 & t0 & q0 & [J|J] & K)]; [left; destruct (says q w); [right|]; exact H| |right; exists n0, t0, q0; auto]. injection J as -> -> -> ->. rewrite K. left. left. reflexivity.
Qed.
Lemma answers_none w T os : forall open, (forall u m, ~ In (NRet u (RMsg m)) os) -> answers_in w open (pstamp T (map PONet os)) = [].
Proof.
  induction os as [|o os IH]; intros open H; [reflexivity|]. cbn. assert (H' : forall u m, ~ In (NRet u (RMsg m)) os) by (intros u m J; apply (H u m); right; exact J).
  destruct o as [t c|t r|m r|t r]; try (apply IH, H'). destruct r as [b|m|e]; try (apply IH, H'). destruct (H t m). left. reflexivity.
Qed.
Lemma opens_nets w T os : forall open, opens w open (pstamp T (map PONet os)) = open.
Proof. induction os as [|o os IH]; intros open; [reflexivity|]. apply IH. Qed.
Lemma answers_rest w T os : forall open, (forall u m, ~ In (PONet (NRet u (RMsg m))) os) -> answers_in w open (pstamp T os) = [].
Proof.
  induction os as [|o os IH]; intros open H; [reflexivity|]. cbn. assert (H' : forall u m, ~ In (PONet (NRet u (RMsg m))) os) by (intros u m J; apply (H u m); right; exact J).
  destruct o as [o|t x|t u q|t q|t r|t r]; try (apply IH, H'). destruct o as [t c|t r|m r|t r]; try (apply IH, H'). destruct r as [b|m|e]; try (apply IH, H'). destruct (H t m). left. reflexivity.
Qed.
Lemma last_answer w T open pre u r : (forall u' r', ~ In (NRet u' r') pre) ->
  answers_in w open (pstamp T (map PONet (pre ++ [NRet u r]))) = match r with RMsg m => if existsb (Nat.eqb u) open then [m] else [] | _ => [] end.
Proof.
  intros N. rewrite map_app, stamp_app, answers_app, opens_nets, answers_none by (intros u' m' J; exact (N _ _ J)). cbn. destruct r as [b|m|e]; try reflexivity.
Qed.
Lemma nat_mem u l : existsb (Nat.eqb u) l = true <-> In u l.
Proof. rewrite existsb_exists. split; [intros (x & J & E); apply Nat.eqb_eq in E; subst; exact J|intros J; exists u; split; [exact J|apply Nat.eqb_refl]]. Qed.
Lemma returns_open s tr e n osn u r : linked s tr -> nstep (p_net s) e = Some (n, osn) -> In (NRet u r) osn -> forall n0 r0, ~ In (n0, PONet (NRet u r0)) tr.
Proof.
  intros L ST J n0 r0 K. destruct (l_net _ _ L) as [es X]. apply in_nets in K. destruct (ret_done _ _ _ X _ _ _ K) as (x & A & B). destruct (InterviewData.ret_open _ _ _ _ _ _ ST J) as (y & C & D).
  rewrite A in C. injection C as <-. exact (D _ B).
Qed.
Definition new (w : list Z) (s : pstate) (tr : ptrace) (os : list pobs) : list val := answers_in w (opens w [] tr) (pstamp (n_now (p_net s)) os).
Lemma quiet_answers s tr e s' os w : linked s tr -> quiet_step s e s' os -> new w s tr os = [].
Proof.
  intros L (e' & n & osn & -> & ST & -> & -> & NW). unfold new. destruct (InterviewProofs.one_return _ _ _ _ ST) as [[_ NR]|(pre & u & r & -> & R & NP & _)]; [apply answers_none; intros u m; apply NR|].
  rewrite last_answer by exact NP. destruct r as [b|m|x]; try reflexivity. destruct (existsb (Nat.eqb u) (opens w [] tr)) eqn:E; [|reflexivity].
  apply nat_mem, opens_in in E as [[]|(n0 & t & q & J & S)]. destruct (l_ask _ _ L _ _ _ _ J) as [_ [(wt & B & _)|(n1 & r & B)]].
  - destruct (NW u (RMsg m) t wt); [apply in_or_app; right; left; reflexivity|exact B].
  - destruct (returns_open _ _ _ _ _ u (RMsg m) L ST) with (n0 := n1) (r0 := r); [apply in_or_app; right; left; reflexivity|exact B].
Qed.
Lemma asked_top s tr u t wt w : linked s tr -> nth_error (p_tasks s) t = Some (PSusp u wt) -> (forall n0 r0, ~ In (n0, PONet (NRet u r0)) tr) ->
  existsb (Nat.eqb u) (opens w [] tr) = says (wq (p_cls s) wt) w.
Proof.
  intros L Q NR. apply Bool.eq_iff_eq_true. rewrite nat_mem, opens_in. split.
  - intros [[]|(n0 & t' & q' & J & S)]. destruct (l_ask _ _ L _ _ _ _ J) as [_ [(w' & B & ->)|(n1 & r & B)]]; [|destruct (NR _ _ B)].
    assert (t' = t) by exact (l_uniq _ _ L _ _ _ _ _ B Q). subst t'. rewrite Q in B. injection B as <-. exact S.
  - intros S. right. destruct (l_susp _ _ L _ _ _ Q) as (p & n0 & _ & _ & J). eauto.
Qed.
Lemma tail_quiet n t a u r : ~ In (PONet (NRet u r)) (tail_of n t a).
Proof. destruct a; cbn; intuition discriminate. Qed.
(** the new answers of a step in which a coroutine goes on *)
Lemma turn_answers s tr e n osn t hd gs ts a w : linked s tr -> turn s e n osn t hd gs ts a ->
  new w s tr (map PONet osn ++ hd ++ tail_of n t a) =
  match returned osn, nth_error (p_tasks s) t with
  | Some (_, RMsg m), Some (PSusp _ wt) => if says (wq (p_cls s) wt) w then [m] else []
  | _, _ => []
  end.
Proof.
  intros L TN. destruct (turn_net _ _ _ _ _ _ _ _ _ TN) as (NT & _ & _ & HO & NS). unfold new. rewrite stamp_app, answers_app, opens_nets.
  rewrite (answers_rest w _ (hd ++ tail_of n t a)) by (intros u m J; apply in_app_or in J as [J|J]; [exact (HO _ J)|exact (tail_quiet _ _ _ _ _ J)]). rewrite app_nil_r.
  destruct NS as [(_ & -> & _)|(e' & u & r & wt & _ & ST & Q & R & ONE & IR)]; [reflexivity|].
  rewrite R, Q. destruct (InterviewProofs.one_return _ _ _ _ ST) as [[R' _]|(pre & u0 & r0 & -> & R' & NP & NN)]; [change (returned osn = None) in R'; congruence|].
  change (returned (pre ++ [NRet u0 r0]) = Some (u0, r0)) in R'. rewrite R in R'. injection R' as <- <-. rewrite last_answer by exact NP.
  destruct r as [b|m|y]; try reflexivity. rewrite (asked_top s tr u t wt w L Q); [reflexivity|]. eapply returns_open; [exact L|exact ST|exact IR].
Qed.
(** what a request returns was received after its command was acknowledged *)
Lemma reply s tr e n osn u m t w : linked s tr -> nstep (p_net s) e = Some (n, osn) -> In (NRet u (RMsg m)) osn -> nth_error (p_tasks s) t = Some (PSusp u w) ->
  hid m = wh (p_cls s) w /\ exists n0, In (n0, NRecv m (Ok true)) (since_sent u (nets tr ++ nstamp (n_now (p_net s)) osn)).
Proof.
  intros L ST J Q. destruct (l_susp _ _ L _ _ _ Q) as (p & n0 & P1 & P2 & _). destruct (l_net _ _ L) as [es X].
  assert (X' : nexec nstate0 (es ++ [e]) n (nets tr ++ nstamp (n_now (p_net s)) osn)) by (econstructor; eassumption).
  destruct (step_tasks _ _ _ _ ST) as (KT & _ & _ & _ & OR & _). destruct (OR u _ J) as (y & Y1 & Y2). destruct (KT u _ P1) as (y' & Y3 & Y4 & _). rewrite Y1 in Y3. injection Y3 as <-.
  destruct y as [c pc]. cbn in Y2, Y4. subst c pc. pose proof (f_task _ _ (exec_fresh _ _ _ X') u _ 3000 _ Y1) as F. cbn in F. destruct F as [_ [F1 F2]]. auto.
Qed.
Lemma reply_wire s tr e n osn u m t w x : linked s tr -> nstep (p_net s) e = Some (n, osn) -> In (NRet u (RMsg m)) osn -> nth_error (p_tasks s) t = Some (PSusp u w) ->
  from_wire (tr ++ pstamp (n_now (p_net s)) (map PONet osn ++ x)) -> hid m = wh (p_cls s) w /\ exists bs, Forall byte bs /\ decode bs = Ok m.
Proof.
  intros L ST J Q W. destruct (reply _ _ _ _ _ _ _ _ _ L ST J Q) as (H & n0 & R). apply since_split in R as (a & T0 & b & E & R). split; [exact H|]. apply (W n0 m (Ok true)).
  apply in_nets. rewrite nets_app, stamp_app, nets_app, nets_map, app_assoc, E. apply in_or_app. left. apply in_or_app. right. right. exact R.
Qed.
