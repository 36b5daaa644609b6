(** Proofs for C116: interviews end. *)
From Coq Require Import String ZArith List Bool Lia Arith.
From Verif Require Import Py Schema Registry Codec Waiter Conn ConnLemmas NodeReq SpecNodeReq SpecNodeLive NodeReqProofs NodeLive NodeM CmdClass AssocM SpecAssoc SpecAssocLive AssocProofs AssocCourse.
Import ListNotations.
Open Scope list_scope.
Open Scope string_scope.
Open Scope list_scope.
Open Scope Z_scope.

(** ** runs *)
Lemma pexec_app s0 es s tr es2 s2 tr2 : pexec s0 es s tr -> pexec s es2 s2 tr2 -> pexec s0 (es ++ es2) s2 (tr ++ tr2).
Proof. intros A. induction 1 as [|es2 s2 tr2 e s' os X IH ST]; [rewrite !app_nil_r; exact A|]. rewrite !app_assoc. apply PX_snoc; assumption. Qed.
Lemma pexec_one s e s' os : pstep s e = Some (s', os) -> pexec s [e] s' (pstamp (n_now (p_net s)) os).
Proof. intros H. change [e] with ([] ++ [e]). change (pstamp (n_now (p_net s)) os) with ([] ++ pstamp (n_now (p_net s)) os). apply PX_snoc; [constructor|exact H]. Qed.
Lemma helps_more t a b e : helps t a e -> helps t (a ++ b) e.
Proof. destruct e as [e|x|t' r]; cbn; auto. destruct e; auto; intros (n & q & J); exists n, q; apply in_or_app; auto. Qed.
Lemma all_more t a b es : Forall (helps t a) es -> Forall (helps t (a ++ b)) es.
Proof. intros H. eapply Forall_impl; [|exact H]. intros e. apply helps_more. Qed.
Definition silent (es : list pevent) : Prop := Forall (fun e => match e with PNet (NEvSent _ _) | PSent _ _ => False | _ => True end) es.
Lemma silent_outcome net es : silent es -> outcome net es.
Proof. intros H i e r N (u & Q). apply nth_error_In in N. unfold silent in H. rewrite Forall_forall in H. specialize (H _ N). destruct Q as [->| ->]; destruct H. Qed.
Lemma outcome_app net es1 es2 : outcome net es1 -> outcome (fun i => net (length es1 + i)%nat) es2 -> outcome net (es1 ++ es2).
Proof.
  intros A B i e r N Q. destruct (Nat.lt_ge_cases i (length es1)) as [L|L].
  - rewrite nth_error_app1 in N by exact L. exact (A _ _ _ N Q).
  - rewrite nth_error_app2 in N by exact L. rewrite (B _ _ _ N Q). f_equal. lia.
Qed.
Lemma outcome_one net e : (forall r, (exists u, e = PNet (NEvSent u r) \/ e = PSent u r) -> r = net 0%nat) -> outcome net [e].
Proof. intros H [|[|i]] e' r N Q; try discriminate N. injection N as <-. exact (H r Q). Qed.

(** ** a request goes on *)
Lemma step_some s e n os : nstep (p_net s) e = Some (n, os) -> exists s' o, pstep s (PNet e) = Some (s', o).
Proof. intros H. cbn [pstep]. rewrite H. destruct (match returned os with Some _ => _ | None => _ end) as [s' o]. eauto. Qed.
(** it did not end: the task still waits *)
Lemma go_on s tr e n os t u w : linked s tr -> nstep (p_net s) e = Some (n, os) -> nth_error (p_tasks s) t = Some (PSusp u w) -> (forall u' r, In (NRet u' r) os -> u' = u) ->
  exists s' o, pstep s (PNet e) = Some (s', o) /\
   (((forall r, ~ In (NRet u r) os) /\ p_net s' = n /\ nth_error (p_tasks s') t = Some (PSusp u w)) \/
    ((exists r, In (NRet u r) os) /\ exists r gs ts a, got (p_cls s) w r gs ts = (p_groups s', p_types s', a) /\ nth_error (p_tasks s') t = Some (pc_of n a) /\ forall x, a = QRes x -> In (PODone t x) o)).
Proof.
  intros L ST Q ONE. destruct (step_some _ _ _ _ ST) as (s' & o & H). exists s', o. split; [exact H|].
  destruct (step_cases s _ s' o H) as [(e' & n0 & osn & E & ST' & -> & -> & NW)|(n0 & osn & t0 & hd & gs & ts & a & n' & TN & NA & -> & ->)].
  - injection E as <-. rewrite ST in ST'. injection ST' as <- <-. left. split; [intros r J; exact (NW u r t w J Q)|]. split; [reflexivity|exact Q].
  - inversion TN; subst. match goal with K : nstep (p_net s) e = Some (n0, osn) |- _ => rewrite ST in K; injection K as <- <- end.
    destruct (turn_net _ _ _ _ _ _ _ _ _ TN) as (_ & _ & _ & _ & [(_ & -> & NS)|(e'' & u1 & r1 & w1 & _ & _ & Q1 & R1 & _ & IR)]); [exfalso; discriminate|].
    pose proof (ONE _ _ IR) as ->. match goal with K : nth_error (p_tasks s) t0 = Some (PSusp _ _) |- _ => rewrite Q1 in K; injection K as <- <- end.
    pose proof (l_uniq _ _ L _ _ _ _ _ Q Q1) as <-. rewrite Q in Q1. injection Q1 as <-. right. split; [eauto|]. cbn [p_groups p_types p_tasks].
    eexists _, _, _, a. split; [eassumption|]. split; [apply at_put; apply nth_lt in Q; lia|]. intros x ->. apply in_or_app. right. left. reflexivity.
Qed.
Definition resumed (t : nat) (w : pwait) (s2 : pstate) (tr2 : ptrace) : Prop := exists n r gs ts a, got (p_cls s2) w r gs ts = (p_groups s2, p_types s2, a) /\
  nth_error (p_tasks s2) t = Some (pc_of n a) /\ forall x, a = QRes x -> exists m, In (m, PODone t x) tr2.
Section Run.
Variable c0 : classes.
Variable gs0 : groupings.
Variable ts0 : list (Z * Z).
Notation s0 := (pstate0 c0 gs0 ts0).
Lemma susp_net es s tr t u w : pexec s0 es s tr -> nth_error (p_tasks s) t = Some (PSusp u w) ->
  linked s tr /\ by_task tr t u /\ exists nes p, nexec nstate0 nes (p_net s) (nets tr) /\ nth_error (n_tasks (p_net s)) u = Some (mkNT (NReq (wh (p_cls s) w) 3000) p) /\ (forall r, p <> NDone r) /\
    NodeLive.stage u (n_now (p_net s)) (NReq (wh (p_cls s) w) 3000) p (nets tr).
Proof.
  intros X Q. destruct (linked_exec _ _ _ _ _ _ X) as [L _]. split; [exact L|]. destruct (l_susp _ _ L _ _ _ Q) as (p & n & A & B & C). split; [exists n, (wq (p_cls s) w); exact C|].
  destruct (l_net _ _ L) as [nes N]. exists nes, p. split; [exact N|]. split; [exact A|]. split; [exact B|]. exact (NodeLive.stage_exec _ _ _ N _ _ A).
Qed.
(** it waits for its answer: it ends by itself *)
Lemma over_waiting k : forall es s tr t u w, pexec s0 es s tr -> nth_error (p_tasks s) t = Some (PSusp u w) -> nth_error (n_tasks (p_net s)) u <> Some (mkNT (NReq (wh (p_cls s) w) 3000) NSending) -> (NodeLive.left (p_net s) u <= k)%nat ->
  exists es2 s2 tr2, pexec s es2 s2 tr2 /\ Forall (helps t (tr ++ tr2)) es2 /\ silent es2 /\ resumed t w s2 tr2.
Proof.
  induction k as [|k IH]; intros es s tr t u w X Q NS LE; destruct (susp_net _ _ _ _ _ _ X Q) as (L & BY & nes & p & N & E & ND & SG).
  - exfalso. unfold NodeLive.left in LE. rewrite E in LE. destruct p as [|h f dl []|h f|r]; cbn in LE; try lia. exact (ND r eq_refl).
  - assert (dt : {dt | 0 <= dt /\ forall h f dl ph, p = NWaiting h f dl ph -> dl <= n_now (p_net s) + dt}).
    { destruct p as [|h f dl ph|h f|r]; [exists 0|exists (Z.max 0 (dl - n_now (p_net s)))|exists 0|exists 0]; (split; [lia|]); intros; try discriminate. match goal with K : NWaiting _ _ _ _ = _ |- _ => injection K as <- <- <- <- end. lia. }
    destruct dt as (dt & D0 & DL).
    assert (A1 : nstep (p_net s) (NEvAdvance dt) = Some (nlater dt (p_net s), [])) by (cbn; destruct (Z.leb_spec 0 dt); [reflexivity|lia]).
    destruct (go_on _ _ _ _ _ _ _ _ L A1 Q) as (s1 & o1 & P1 & K1); [intros ? ? []|]. destruct K1 as [(_ & N1 & Q1)|((r & []) & _)].
    assert (PO : npossible (p_net s1) u).
    { rewrite N1. destruct p as [|h f dl ph|h f|r]; [exfalso; exact (NS E)| | |exfalso; exact (ND r eq_refl)].
      - eapply poss_wait; [exact N|exact E|reflexivity|]. exact (DL _ _ _ _ eq_refl).
      - eapply poss_cancel; [exact E|reflexivity]. }
    pose proof (pexec_one _ _ _ _ P1) as X1. pose proof (pexec_app _ _ _ _ _ _ _ X X1) as X01. pose proof (cls_step _ _ _ _ P1) as C1.
    assert (exists e n2 os, nown u e = true /\ nstep (p_net s1) e = Some (n2, os)) as (e & n2 & os & O & S2).
    { destruct PO as [PO|PO]; [destruct (nstep (p_net s1) (NEvTimer u)) as [[n2 os]|] eqn:Y; [|congruence]; exists (NEvTimer u), n2, os|
                            destruct (nstep (p_net s1) (NEvResume u)) as [[n2 os]|] eqn:Y; [|congruence]; exists (NEvResume u), n2, os];
      (split; [cbn; apply Nat.eqb_refl|exact Y]). }
    destruct (susp_net _ _ _ _ _ _ X01 Q1) as (L1 & _ & nes1 & p1 & M1 & E1 & ND1 & SG1).
    destruct (go_on _ _ _ _ _ _ _ _ L1 S2 Q1) as (s2 & o2 & P2 & K2).
    { intros u' r J. assert (U : e = NEvTimer u \/ e = NEvResume u) by (destruct e as [| | | |v|v|]; try discriminate O; cbn in O; apply Nat.eqb_eq in O; subst; auto).
      destruct U as [->| ->]; cbn in S2; rewrite E1 in S2; destruct p1 as [|h f dl ph|h f|r1]; try discriminate S2.
      - destruct ph; try discriminate S2. destruct (dl <=? n_now (p_net s1)); [|discriminate]. injection S2 as <- <-. destruct J.
      - unfold n_resume in S2. destruct (nth_error (w_futs (n_w (p_net s1))) f) as [[| |]|], ph; try discriminate S2; injection S2 as <- <-; ((destruct J as [J|[]]; injection J as <- <-; reflexivity) || destruct J).
      - injection S2 as <- <-. destruct J as [J|[]]. injection J as <- <-. reflexivity. }
    pose proof (pexec_one _ _ _ _ P2) as X2. pose proof (pexec_app _ _ _ _ _ _ _ X1 X2) as X12. pose proof (cls_step _ _ _ _ P2) as C2.
    assert (H12 : Forall (helps t tr) ([PNet (NEvAdvance dt)] ++ [PNet e])).
    { constructor; [exact I|]. constructor; [|constructor]. destruct e; try discriminate O; cbn in O; apply Nat.eqb_eq in O; subst; exact BY. }
    assert (S12 : silent ([PNet (NEvAdvance dt)] ++ [PNet e])) by (constructor; [exact I|]; constructor; [destruct e; try discriminate O; exact I|constructor]).
    destruct K2 as [(_ & N2 & Q2)|(_ & r & gs & ts & a & G & Q2 & DN)].
    + pose proof (pexec_app _ _ _ _ _ _ _ X X12) as X012. destruct (IH _ s2 _ t u w X012 Q2) as (es2 & s3 & tr3 & X3 & H3 & S3 & R3).
      * rewrite N2. intros E2. pose proof (NodeLive.left_step _ _ _ _ u S2) as L2. rewrite O in L2. unfold NodeLive.left in L2. rewrite E2 in L2. cbn in L2. rewrite E1 in L2. destruct p1 as [|h f dl []|h f|r1]; cbn in L2; lia.
      * rewrite N2. pose proof (NodeLive.left_step _ _ _ _ u A1) as LA. rewrite <- N1 in LA. pose proof (NodeLive.left_step _ _ _ _ u S2) as L2. rewrite O in L2. lia.
      * exists (([PNet (NEvAdvance dt)] ++ [PNet e]) ++ es2), s3, ((pstamp (n_now (p_net s)) o1 ++ pstamp (n_now (p_net s1)) o2) ++ tr3). split; [exact (pexec_app _ _ _ _ _ _ _ X12 X3)|].
        split; [apply Forall_app; split; [apply all_more; exact H12|rewrite app_assoc; exact H3]|]. split; [apply Forall_app; auto|]. destruct R3 as (n3 & r & gs & ts & a & G & Q3 & DN). exists n3, r, gs, ts, a. split; [exact G|]. split; [exact Q3|]. intros x A. destruct (DN x A) as (m & J). exists m. apply in_or_app. auto.
    + eexists _, s2, _. split; [exact X12|]. split; [apply all_more; exact H12|]. split; [exact S12|]. exists n2, r, gs, ts, a. rewrite C2. split; [exact G|]. split; [exact Q2|]. intros x A. exists (n_now (p_net s1)).
      apply in_or_app. right. apply in_stamp. split; [reflexivity|]. exact (DN x A).
Qed.
(** however sending it ends *)
Lemma over net es s tr t u w : pexec s0 es s tr -> nth_error (p_tasks s) t = Some (PSusp u w) ->
  exists es2 s2 tr2, pexec s es2 s2 tr2 /\ Forall (helps t (tr ++ tr2)) es2 /\ outcome net es2 /\ resumed t w s2 tr2.
Proof.
  intros X Q. destruct (susp_net _ _ _ _ _ _ X Q) as (L & BY & nes & p & N & E & ND & SG).
  assert (DEC : p = NSending \/ p <> NSending) by (destruct p; auto; right; discriminate). destruct DEC as [->|NS].
  - assert (exists n os, nstep (p_net s) (NEvSent u (net 0%nat)) = Some (n, os)) as (n & os & S1) by (cbn [nstep]; rewrite E; destruct (net 0%nat) as [[]|]; cbn; eauto).
    destruct (go_on _ _ _ _ _ _ _ _ L S1 Q) as (s1 & o1 & P1 & K1).
    { intros u' r J. cbn [nstep] in S1. rewrite E in S1. destruct (net 0%nat) as [[]|]; cbn in S1; injection S1 as <- <-; repeat (destruct J as [J|J]; [discriminate J || (injection J as <- <-; reflexivity)|]); destruct J. }
    pose proof (pexec_one _ _ _ _ P1) as X1. pose proof (pexec_app _ _ _ _ _ _ _ X X1) as X01. pose proof (cls_step _ _ _ _ P1) as C1.
    assert (H1 : Forall (helps t tr) [PNet (NEvSent u (net 0%nat))]) by (constructor; [exact BY|constructor]).
    assert (O1 : outcome net [PNet (NEvSent u (net 0%nat))]) by (apply outcome_one; intros r (u' & [Y|Y]); [injection Y as _ <-; reflexivity|discriminate]).
    destruct K1 as [(_ & N1 & Q1)|(_ & r & gs & ts & a & G & Q1 & DN)].
    + assert (NW : nth_error (n_tasks (p_net s1)) u <> Some (mkNT (NReq (wh (p_cls s1) w) 3000) NSending)).
      { intros Y. cbn [nstep] in S1. rewrite E in S1. destruct (susp_net _ _ _ _ _ _ X01 Q1) as (_ & _ & nes1 & p1 & M1 & E1 & ND1 & SG1). rewrite Y in E1. injection E1 as <-. destruct SG1 as (_ & NSN & _).
        apply (NSN (n_now (p_net s)) (net 0%nat)). apply in_nets. apply in_or_app. right. apply in_stamp. split; [reflexivity|].
        destruct (step_cases s _ s1 o1 P1) as [(e' & n0 & osn & EE & ST' & _ & -> & _)|(n0 & osn & t0 & hd & gs & ts & a & n' & TN & _ & _ & ->)].
        -- injection EE as <-. cbn [nstep] in ST'. rewrite E in ST'. apply in_map. destruct (net 0%nat) as [[]|]; cbn in ST'; injection ST' as <- <-; left; reflexivity.
        -- apply in_or_app. left. apply in_map. inversion TN; subst. match goal with K : nstep (p_net s) _ = Some (n0, osn) |- _ => cbn [nstep] in K; rewrite E in K; destruct (net 0%nat) as [[]|]; cbn in K; injection K as <- <-; left; reflexivity end. }
      destruct (over_waiting _ _ _ _ t u w X01 Q1 NW (le_n _)) as (es2 & s2 & tr2 & X2 & H2 & S2 & R2).
      exists ([PNet (NEvSent u (net 0%nat))] ++ es2), s2, (pstamp (n_now (p_net s)) o1 ++ tr2). split; [exact (pexec_app _ _ _ _ _ _ _ X1 X2)|].
        split; [apply Forall_app; split; [apply all_more; exact H1|rewrite app_assoc; exact H2]|]. split; [apply outcome_app; [exact O1|apply silent_outcome; exact S2]|].
        destruct R2 as (n3 & r & gs & ts & a & G & Q3 & DN). exists n3, r, gs, ts, a. split; [exact G|]. split; [exact Q3|]. intros x A. destruct (DN x A) as (m & J). exists m. apply in_or_app. auto.
    + eexists _, s1, _. split; [exact X1|]. split; [apply all_more; exact H1|]. split; [exact O1|]. exists n, r, gs, ts, a. rewrite C1. split; [exact G|]. split; [exact Q1|]. intros x A. exists (n_now (p_net s)).
      apply in_stamp. split; [reflexivity|]. exact (DN x A).
  - assert (NW : nth_error (n_tasks (p_net s)) u <> Some (mkNT (NReq (wh (p_cls s) w) 3000) NSending)) by (rewrite E; intros Y; injection Y as ->; exact (NS eq_refl)).
    destruct (over_waiting _ _ _ _ t u w X Q NW (le_n _)) as (es2 & s2 & tr2 & X2 & H2 & S2 & R2).
    exists es2, s2, tr2. split; [exact X2|]. split; [exact H2|]. split; [apply silent_outcome; exact S2|exact R2].
Qed.

(** ** the task goes on *)
Definition rank (a : pact) : nat :=
  match a with
  | QRes _ => 0
  | QAsk _ _ PLast => 1
  | QSend _ => 2
  | QAsk _ _ (PGroup _ _ rest) => 3 + length rest
  | QAsk _ _ (PScale _ rest) => 1 + length rest
  | QAsk _ _ _ => 0
  end.
Definition first_wait (a : pact) : bool := match a with QAsk _ _ PGet | QAsk _ _ (PSensors _) => true | _ => false end.
Definition prank (p : ppc) : nat := match p with PSusp _ w => rank (QAsk VNone 0 w) | PSending => 2 | PEnd _ => 0 end.
Definition pfirst (p : ppc) : bool := match p with PSusp _ w => first_wait (QAsk VNone 0 w) | _ => false end.
Lemma rank_life c gs : (rank (lifeline c gs) <= 2)%nat /\ first_wait (lifeline c gs) = false.
Proof. rewrite lifeline_is. repeat match goal with |- context [match ?x with _ => _ end] => destruct x end; cbn; split; auto; lia. Qed.
Lemma rank_group c gs size rest : (rank (next_group c gs size rest) <= 2 + length rest)%nat /\ first_wait (next_group c gs size rest) = false.
Proof.
  unfold next_group. destruct (Nat.eqb _ _); [|cbn; split; [lia|reflexivity]]. destruct rest as [|i rest]; [pose proof (rank_life c gs) as [A B]; split; [cbn; lia|exact B]|]. rewrite ask_group_is. cbn. split; [lia|reflexivity].
Qed.
Lemma rank_scale rest : (rank (next_scale rest) <= length rest)%nat /\ first_wait (next_scale rest) = false.
Proof. rewrite next_scale_is. destruct rest; cbn; split; auto. Qed.
Lemma got_rank c w r gs ts gs' ts' a : got c w r gs ts = (gs', ts', a) -> first_wait a = false /\ (first_wait (QAsk VNone 0 w) = true \/ (rank a < rank (QAsk VNone 0 w))%nat).
Proof.
  intros G. destruct w as [|i size rest| |order|k rest]; cbn [got] in G; destruct r as [m|e]; cbn [first_wait rank].
  - destruct (to_int _) as [n|e]; injection G as <- <- <-; [|auto]. split; [apply rank_group|auto].
  - injection G as <- <- <-. auto.
  - assert (Y : a = next_group c gs' size rest \/ exists e, a = QRes (Err e)) by (destruct (record_group i m gs) as [g [x|e]]; [|destruct e]; injection G as <- <- <-; eauto).
    destruct Y as [->|(e & ->)]; [|cbn; split; [reflexivity|right; lia]]. destruct (rank_group c gs' size rest) as [A B]. split; [exact B|right; lia].
  - assert (Y : a = next_group c gs' size rest \/ exists e, a = QRes (Err e)) by (destruct e; injection G as <- <- <-; eauto).
    destruct Y as [->|(e' & ->)]; [|cbn; split; [reflexivity|right; lia]]. destruct (rank_group c gs' size rest) as [A B]. split; [exact B|right; lia].
  - destruct (record_group 1 m gs) as [g x]. injection G as <- <- <-. cbn. split; [reflexivity|right; lia].
  - injection G as <- <- <-. cbn. split; [reflexivity|right; lia].
  - destruct (getattr m "bitMask"); injection G as <- <- <-; split; try (left; reflexivity); try reflexivity. apply rank_scale.
  - injection G as <- <- <-. auto.
  - destruct (to_int _) as [n|e]; injection G as <- <- <-; [|cbn; split; [reflexivity|right; lia]]. destruct (rank_scale rest) as [A B]. split; [exact B|right; lia].
  - injection G as <- <- <-. cbn. split; [reflexivity|right; lia].
Qed.
Definition goal (net : nat -> res bool) (s : pstate) (tr : ptrace) (t : nat) : Prop :=
  exists es2 s2 tr2 n r, pexec s es2 s2 tr2 /\ Forall (helps t (tr ++ tr2)) es2 /\ outcome net es2 /\ In (n, PODone t r) tr2.
Lemma goal_after net s tr t es1 s1 tr1 : pexec s es1 s1 tr1 -> Forall (helps t (tr ++ tr1)) es1 -> outcome net es1 -> goal (fun i => net (length es1 + i)%nat) s1 (tr ++ tr1) t -> goal net s tr t.
Proof.
  intros X H O (es2 & s2 & tr2 & n & r & X2 & H2 & O2 & J). exists (es1 ++ es2), s2, (tr1 ++ tr2), n, r. split; [exact (pexec_app _ _ _ _ _ _ _ X X2)|].
  rewrite app_assoc. split; [apply Forall_app; split; [apply all_more; exact H|exact H2]|]. split; [apply outcome_app; assumption|apply in_or_app; auto].
Qed.
Lemma pc_rank n a : pfirst (pc_of n a) = first_wait a /\ prank (pc_of n a) = rank a. Proof. destruct a as [q h w|q|r]; [destruct w| |]; split; reflexivity. Qed.
Lemma ends_rank k : forall net es s tr t p, pexec s0 es s tr -> nth_error (p_tasks s) t = Some p -> pfirst p = false -> (prank p <= k)%nat -> (forall r, p <> PEnd r) -> goal net s tr t.
Proof.
  induction k as [|k IH]; intros net es s tr t p X Q F LE NE.
  - exfalso. destruct p as [u w| |r]; [destruct w; cbn in *; discriminate || lia|cbn in LE; lia|exact (NE r eq_refl)].
  - assert (NEXT : forall es1 s1 tr1 n a, pexec s es1 s1 tr1 -> Forall (helps t (tr ++ tr1)) es1 -> outcome net es1 -> nth_error (p_tasks s1) t = Some (pc_of n a) -> first_wait a = false -> (rank a < prank p)%nat ->
              (forall x, a = QRes x -> exists m, In (m, PODone t x) tr1) -> goal net s tr t).
    { intros es1 s1 tr1 n a X1 H1 O1 Q1 F1 L1 D1. destruct (pc_rank n a) as [PF PR]. assert (DEC : (exists x, a = QRes x) \/ forall x, a <> QRes x) by (destruct a; [right; discriminate|right; discriminate|left; eauto]).
      destruct DEC as [(x & A)|NX].
      - destruct (D1 x A) as (m & J). exists es1, s1, tr1, m, x. auto.
      - apply (goal_after net s tr t es1 s1 tr1 X1 H1 O1). apply (IH _ _ _ _ _ (pc_of n a) (pexec_app _ _ _ _ _ _ _ X X1) Q1); [congruence|lia|]. intros r Y. destruct a; try discriminate Y. exact (NX _ eq_refl). }
    destruct p as [u w| |r]; [| |exfalso; exact (NE r eq_refl)].
    + destruct (over net _ _ _ _ _ _ X Q) as (es1 & s1 & tr1 & X1 & H1 & O1 & n & r & gs & ts & a & G & Q1 & D1). destruct (got_rank _ _ _ _ _ _ _ _ G) as [FA [FW|LT]]; [unfold pfirst in F; rewrite FW in F; discriminate|].
      exact (NEXT _ _ _ n a X1 H1 O1 Q1 FA LT D1).
    + assert (exists s1 o1, pstep s (PSent t (net 0%nat)) = Some (s1, o1)) as (s1 & o1 & P1) by (cbn [pstep]; rewrite Q; destruct (perform t _ s) as [s1 o1]; eauto).
      destruct (step_cases s _ s1 o1 P1) as [(e' & n0 & osn & EE & _)|(n0 & osn & t0 & hd & gs & ts & a & n' & TN & NA & S1 & OO)]; [discriminate|]. inversion TN; subst.
      apply (NEXT _ _ _ (p_net s) (match net 0%nat with Ok _ => ask_group (p_cls s) 1 PLast | Err e => QRes (Err e) end) (pexec_one _ _ _ _ P1)).
      * constructor; [reflexivity|constructor].
      * apply outcome_one. intros r (u & [Y|Y]); [discriminate|injection Y as _ <-; reflexivity].
      * cbn [p_tasks]. apply at_put. apply nth_lt in Q. lia.
      * destruct (net 0%nat); [rewrite ask_group_is|]; reflexivity.
      * destruct (net 0%nat); [rewrite ask_group_is|]; cbn; lia.
      * intros x A. exists (n_now (p_net s)). apply in_stamp. split; [reflexivity|]. rewrite A. right. left. reflexivity.
Qed.
Lemma open_pc es s tr t : pexec s0 es s tr -> popen tr t -> exists p, nth_error (p_tasks s) t = Some p /\ forall r, p <> PEnd r.
Proof.
  intros X ((n & c & C) & ND). revert n c C ND. induction X as [|es s tr e s' os X IH ST]; intros n c C ND; [destruct C|].
  assert (ND0 : forall n r, ~ In (n, PODone t r) tr) by (intros m r J; apply (ND m r); apply in_or_app; auto).
  assert (NDO : forall r, ~ In (PODone t r) os) by (intros r J; apply (ND (n_now (p_net s)) r); apply in_or_app; right; apply in_stamp; auto).
  destruct (step_cases s e s' os ST) as [(e' & n0 & osn & -> & ST' & -> & -> & NW)|(n0 & osn & t0 & hd & gs & ts & a & n' & TN & NA & -> & ->)]; cbn [p_tasks].
  - apply in_app_or in C as [C|C]; [exact (IH _ _ C ND0)|]. apply in_stamp in C as [_ C]. apply in_map_iff in C as (? & ? & _). discriminate.
  - pose proof (turn_len _ _ _ _ _ _ _ _ _ TN) as TL. destruct (Nat.eq_dec t t0) as [<-|NE].
    + exists (pc_of n0 a). split; [apply at_put; exact TL|]. intros r Y. destruct a as [| |x]; try discriminate Y. apply (NDO x). apply in_or_app. right. apply in_or_app. right. left. reflexivity.
    + assert (CT : In (n, POCall t c) tr).
      { apply in_app_or in C as [C|C]; [exact C|]. exfalso. apply in_stamp in C as [_ C]. apply in_app_or in C as [C|C]; [apply in_map_iff in C as (? & ? & _); discriminate|]. apply in_app_or in C as [C|C].
        - destruct TN as [e0 n1 osn0 u r0 t0 w gs1 ts1 a0 _ _ Q G|x0|t0 r0 Q]; [destruct C|destruct C as [C|[]]; congruence|destruct C as [C|[]]; discriminate].
        - destruct a; cbn in C; intuition discriminate. }
      destruct (IH _ _ CT ND0) as (p & Q & NP). exists p. split; [apply other_put; assumption|exact NP].
Qed.
Lemma ends net es s tr t : pexec s0 es s tr -> popen tr t -> goal net s tr t.
Proof.
  intros X O. destruct (open_pc _ _ _ _ X O) as (p & Q & NP). destruct (pfirst p) eqn:F; [|exact (ends_rank (prank p) net _ _ _ _ p X Q F (le_n _) NP)].
  destruct p as [u w| |r]; try discriminate F. destruct (over net _ _ _ _ _ _ X Q) as (es1 & s1 & tr1 & X1 & H1 & O1 & n & r & gs & ts & a & G & Q1 & D1). destruct (got_rank _ _ _ _ _ _ _ _ G) as [FA _].
  destruct (pc_rank n a) as [PF PR]. assert (DEC : (exists x, a = QRes x) \/ forall x, a <> QRes x) by (destruct a; [right; discriminate|right; discriminate|left; eauto]). destruct DEC as [(x & A)|NX].
  - destruct (D1 x A) as (m & J). exists es1, s1, tr1, m, x. auto.
  - apply (goal_after net s tr t es1 s1 tr1 X1 H1 O1). apply (ends_rank (prank (pc_of n a)) _ _ _ _ _ (pc_of n a) (pexec_app _ _ _ _ _ _ _ X X1) Q1); [congruence|lia|]. intros y Y. destruct a; try discriminate Y. exact (NX _ eq_refl).
Qed.
End Run.

(** ** how many questions *)
Notation nq t tr := (length (questions t tr)).
Notation ns t tr := (length (sends t tr)).
Definition assoc_few (g : nat) (tr : ptrace) (t : nat) (p : ppc) : Prop :=
  match p with
  | PSusp _ PGet => nq t tr = 1%nat /\ ns t tr = 0%nat
  | PSusp _ (PGroup _ size rest) => (nq t tr + length rest = 1 + size)%nat /\ (length rest <= size)%nat /\ (size <= g)%nat /\ ns t tr = 0%nat
  | PSending => (nq t tr <= 1 + g)%nat /\ ns t tr = 1%nat
  | PSusp _ PLast => (nq t tr <= 2 + g)%nat /\ ns t tr = 1%nat
  | PEnd _ => (nq t tr <= 2 + g)%nat /\ (ns t tr <= 1)%nat
  | _ => False
  end.
Definition sensor_few (od : list Z -> list Z) (tr : ptrace) (t : nat) (p : ppc) : Prop :=
  ns t tr = 0%nat /\
  match p with
  | PSusp _ (PSensors od') => od' = od /\ nq t tr = 1%nat
  | PSusp _ (PScale _ rest) => exists l, listed od t tr l /\ (nq t tr + length rest = 1 + length l)%nat /\ (length rest <= length l)%nat
  | PEnd _ => (nq t tr <= 1)%nat \/ exists l, listed od t tr l /\ (nq t tr <= 1 + length l)%nat
  | _ => False
  end.
Lemma assoc_keep g g' tr T os t p : assoc_few g tr t p -> questions t (pstamp T os) = [] -> sends t (pstamp T os) = [] -> (g <= g')%nat -> assoc_few g' (tr ++ pstamp T os) t p.
Proof. intros A Q S L. unfold assoc_few in *. rewrite questions_app, sends_app, Q, S, !app_nil_r. destruct p as [u []| |]; try contradiction; intuition lia. Qed.
Lemma sensor_keep2 od tr T os t p : sensor_few od tr t p -> questions t (pstamp T os) = [] -> sends t (pstamp T os) = [] -> sensor_few od (tr ++ pstamp T os) t p.
Proof.
  intros [A B] Q S. unfold sensor_few in *. rewrite questions_app, sends_app, Q, S, !app_nil_r. split; [exact A|]. destruct p as [u []| |]; try contradiction; auto.
  - destruct B as (l & B & C). exists l. split; [apply listed_more, B|exact C].
  - destruct B as [B|(l & B & C)]; [left; exact B|right]. exists l. split; [apply listed_more, B|exact C].
Qed.
Lemma few_group c gs size rest t tr n : let a := next_group c gs size rest in (nq t tr + length rest = 1 + size + length (q_of a))%nat -> (ns t tr = length (s_of a))%nat -> (length rest <= size)%nat -> (size <= length gs)%nat ->
  assoc_few (length gs) tr t (pc_of n a).
Proof.
  intros a. unfold a, next_group. destruct (Nat.eqb _ _); [|cbn [q_of s_of pc_of assoc_few length]; intros; lia]. destruct rest as [|i rest].
  - rewrite lifeline_is. repeat match goal with |- context [if ?x then _ else _] => destruct x | |- context [match ?x with Some _ => _ | None => _ end] => destruct x end; cbn [q_of s_of pc_of assoc_few length]; intros; lia.
  - rewrite ask_group_is. cbn [q_of s_of pc_of assoc_few length]. intros. lia.
Qed.
Record few_inv (s : pstate) (tr : ptrace) : Prop := mkFew {
  f_task : forall t p, nth_error (p_tasks s) t = Some p -> ((exists n, In (n, POCall t PAssoc) tr) /\ assoc_few (length (p_groups s)) tr t p) \/
    exists v od, (exists n, In (n, POCall t (PSensor v od)) tr) /\ sensor_few od tr t p;
  f_new : forall t, (length (p_tasks s) <= t)%nat -> questions t tr = [] /\ sends t tr = [] /\ forall n x, ~ In (n, POCall t x) tr;
  f_call : forall n n' t x x', In (n, POCall t x) tr -> In (n', POCall t x') tr -> n = n' /\ x = x' }.
Lemma num_length n gs : (length gs <= length (set_num_groups n gs))%nat.
Proof.
  unfold set_num_groups. generalize (seq 1 (Z.to_nat n)). intros l. revert gs. induction l as [|x l IH]; intros gs; [apply le_n|]. cbn [fold_left]. etransitivity; [|apply IH]. destruct (dmem _ _ _); [apply le_n|].
  generalize (Z.of_nat x). intros k. generalize (mkG 0 []). intros v. induction gs as [|[k' y] gs IHg]; cbn [dset length]; [lia|]. destruct (k =? k'); cbn [length]; lia.
Qed.
Lemma got_length c w r gs ts gs' ts' a : got c w r gs ts = (gs', ts', a) -> (length gs <= length gs')%nat.
Proof.
  intros G. destruct (got_keys _ _ _ _ _ _ _ _ G) as [_ [->|E]]; [|lia]. cbn [got] in G. destruct r as [m|e]; [destruct (to_int _)|]; injection G as <- <- <-; try apply le_n. apply num_length.
Qed.
Lemma few_got c w r gs ts gs' ts' a t tr T os u n : got c w r gs ts = (gs', ts', a) -> assoc_few (length gs) tr t (PSusp u w) -> questions t (pstamp T os) = q_of a -> sends t (pstamp T os) = s_of a ->
  assoc_few (length gs') (tr ++ pstamp T os) t (pc_of n a).
Proof.
  intros G A Q S. assert (NQ : nq t (tr ++ pstamp T os) = (nq t tr + length (q_of a))%nat) by (rewrite questions_app, app_length, Q; reflexivity). assert (NS : ns t (tr ++ pstamp T os) = (ns t tr + length (s_of a))%nat) by (rewrite sends_app, app_length, S; reflexivity).
  assert (END : forall x, a = QRes x -> (nq t tr <= 2 + length gs')%nat -> (ns t tr <= 1)%nat -> assoc_few (length gs') (tr ++ pstamp T os) t (pc_of n a)).
  { intros x -> B C. cbn [pc_of assoc_few q_of s_of length] in *. lia. }
  pose proof (got_length _ _ _ _ _ _ _ _ G) as GL.
  destruct w as [|i size rest| |od|k rest]; cbn [assoc_few] in A; try contradiction.
  - assert (Y : (length gs' = length gs' /\ a = next_group c gs' (length gs') (map fst gs')) \/ exists x, a = QRes x) by (cbn [got] in G; destruct r as [m|e]; [destruct (to_int _)|]; injection G as <- <- <-; eauto).
    destruct Y as [[_ Y]|[x Y]]; [|apply (END x Y); lia]. subst a. apply few_group; rewrite ?map_length; lia.
  - assert (Y : (length gs' = length gs /\ a = next_group c gs' size rest) \/ exists x, a = QRes x).
    { destruct (got_keys _ _ _ _ _ _ _ _ G) as [_ [?|E]]; [discriminate|]. cbn [got] in G. destruct r as [m|e]; [destruct (record_group i m gs) as [g [x|x]]; [|destruct x]|destruct e]; injection G as <- <- <-; eauto. }
    destruct Y as [[E Y]|[x Y]]; [|apply (END x Y); lia]. subst a. apply few_group; lia.
  - assert (Y : exists x, a = QRes x) by (cbn [got] in G; destruct r as [m|e]; [destruct (record_group 1 m gs) as [g x]|]; injection G as <- <- <-; eauto). destruct Y as [x Y]. apply (END x Y); lia.
Qed.
Lemma few_scale od tr t n rest l : let a := next_scale rest in listed od t tr l -> ns t tr = length (s_of a) -> (nq t tr + length rest = 1 + length l + length (q_of a))%nat -> (length rest <= length l)%nat -> sensor_few od tr t (pc_of n a).
Proof.
  intros a. unfold a. rewrite next_scale_is. destruct rest as [|k rest]; cbn [q_of s_of pc_of length]; intros L S Q R; (split; [exact S|]).
  - right. exists l. split; [exact L|lia].
  - exists l. split; [exact L|lia].
Qed.
Lemma few_got_sensor c w r gs ts gs' ts' a t tr T os u n od : got c w r gs ts = (gs', ts', a) -> sensor_few od tr t (PSusp u w) -> questions t (pstamp T os) = q_of a -> sends t (pstamp T os) = s_of a ->
  (forall m l0, w = PSensors od -> r = Ok m -> getattr m "bitMask" = VSensors l0 -> listed od t (tr ++ pstamp T os) (od l0)) -> sensor_few od (tr ++ pstamp T os) t (pc_of n a).
Proof.
  intros G A Q S LS. assert (NQ : nq t (tr ++ pstamp T os) = (nq t tr + length (q_of a))%nat) by (rewrite questions_app, app_length, Q; reflexivity). assert (NS : ns t (tr ++ pstamp T os) = (ns t tr + length (s_of a))%nat) by (rewrite sends_app, app_length, S; reflexivity).
  destruct A as [A B]. destruct w as [|i size rest| |od'|k rest]; try contradiction.
  - destruct B as [-> B]. assert (Y : (exists m l0, r = Ok m /\ getattr m "bitMask" = VSensors l0 /\ a = next_scale (od l0)) \/ exists x, a = QRes x).
    { cbn [got] in G. destruct r as [m|e]; [destruct (getattr m "bitMask") eqn:E|]; injection G as <- <- <-; eauto. left. eauto. }
    destruct Y as [(m & l0 & -> & E & ->)|(x & ->)]; [apply (few_scale od _ _ _ (od l0) (od l0)); [exact (LS _ _ eq_refl eq_refl E)|lia..]|]. cbn [pc_of q_of s_of length] in *. split; [lia|]. left. lia.
  - destruct B as (l & B & C). assert (Y : a = next_scale rest \/ exists x, a = QRes x) by (cbn [got] in G; destruct r as [m|e]; [destruct (to_int _)|]; injection G as <- <- <-; eauto).
    destruct Y as [->|(x & ->)]; [apply (few_scale od _ _ _ rest l); [apply listed_more, B|lia..]|]. cbn [pc_of q_of s_of length] in *. split; [lia|]. right. exists l. split; [apply listed_more, B|lia].
Qed.
Lemma few_step c gs0 ts0 es s tr e s' os : pexec (pstate0 c gs0 ts0) es s tr -> few_inv s tr -> pstep s e = Some (s', os) -> few_inv s' (tr ++ pstamp (n_now (p_net s)) os).
Proof.
  intros X I ST. destruct (linked_exec _ _ _ _ _ _ X) as [L C].
  destruct (step_cases s e s' os ST) as [(e' & n & osn & -> & SN & -> & -> & NW)|(n & osn & t & hd & gs & ts & a & n' & TN & NA & -> & ->)].
  - assert (NI : forall o n0, In (n0, o) (pstamp (n_now (p_net s)) (map PONet osn)) -> exists o', o = PONet o') by (intros o n0 J; apply in_stamp in J as [_ J]; apply in_map_iff in J as (o' & <- & _); eauto).
    constructor; cbn [p_tasks p_groups].
    + intros t p Q. destruct (nets_quiet (n_now (p_net s)) t osn) as [A B]. destruct (f_task _ _ I t p Q) as [[[n0 K0] K]|(v & od & [n0 K0] & K)];
        [left; split; [exists n0; apply in_or_app; auto|eapply assoc_keep; eauto]|right; exists v, od; split; [exists n0; apply in_or_app; auto|apply sensor_keep2; assumption]].
    + intros t Q. destruct (f_new _ _ I t Q) as (A & B & D). destruct (nets_quiet (n_now (p_net s)) t osn) as [A' B']. rewrite questions_app, sends_app, A, B, A', B'. split; [reflexivity|]. split; [reflexivity|].
      intros n0 x J. apply in_app_or in J as [J|J]; [exact (D _ _ J)|]. destruct (NI _ _ J). discriminate.
    + intros n0 n1 t x x' J J'. apply in_app_or in J as [J|J]; [|destruct (NI _ _ J); discriminate]. apply in_app_or in J' as [J'|J']; [|destruct (NI _ _ J'); discriminate]. exact (f_call _ _ I _ _ _ _ _ J J').
  - pose proof (turn_len _ _ _ _ _ _ _ _ _ TN) as TL. pose proof (fun t' => turn_seen _ _ _ _ _ _ _ _ _ (n_now (p_net s)) t' TN) as SEEN.
    assert (CALLS : forall n0 t' x, In (n0, POCall t' x) (pstamp (n_now (p_net s)) (map PONet osn ++ hd ++ tail_of n t a)) -> n0 = n_now (p_net s) /\ t' = t /\ t = List.length (p_tasks s) /\ e = PCall x).
    { intros n0 t' x J. apply in_stamp in J as [-> J]. split; [reflexivity|]. apply in_app_or in J as [J|J]; [apply in_map_iff in J as (? & J & _); discriminate|]. apply in_app_or in J as [J|J].
      - destruct TN as [e0 n1 osn0 u r0 t0 w gs1 ts1 a0 _ _ Q G|x0|t0 r0 Q]; [destruct J| |destruct J as [J|[]]; discriminate]. destruct J as [J|[]]. injection J as <- <-. auto.
      - destruct a; cbn in J; intuition discriminate. }
    constructor; cbn [p_tasks p_groups].
    + intros t' p Q'. destruct (put_at _ _ _ _ _ Q' TL) as [[-> ->]|[N Y]].
      * clear Q'. destruct (SEEN t) as [SQ SS]. rewrite Nat.eqb_refl in SQ, SS. destruct TN as [e0 n0 osn0 u r t0 w gs1 ts1 a0 SN R Q G|x|t0 r Q].
        -- destruct (f_task _ _ I _ _ Q) as [[[n1 K0] K]|(v & od & [n1 K0] & K)].
           ++ left. split; [exists n1; apply in_or_app; auto|]. eapply few_got; eassumption.
           ++ right. exists v, od. split; [exists n1; apply in_or_app; auto|]. eapply few_got_sensor; try eassumption. intros m l0 -> RM E.
              destruct (l_susp _ _ L _ _ _ Q) as (p0 & n2 & _ & _ & AS). exists m, l0. split; [|auto]. exists n2, (n_now (p_net s)), u, (wq (p_cls s) (PSensors od)). split; [apply in_or_app; auto|]. split; [exact sensor_wire|].
              apply in_or_app. right. apply in_stamp. split; [reflexivity|]. apply in_or_app. left. apply in_map.
              destruct (turn_net _ _ _ _ _ _ _ _ _ (T_ans s e0 n0 osn0 u r t0 _ gs1 ts1 a0 SN R Q G)) as (_ & _ & _ & _ & [(_ & _ & NS)|(e1 & u1 & r1 & w1 & _ & _ & Q1 & R1 & _ & IR)]); [destruct (NS _ _ Q)|].
              rewrite R in R1. injection R1 as <- <-. destruct r as [m1|b|x]; try discriminate RM. injection RM as ->. exact IR.
        -- destruct (f_new _ _ I (List.length (p_tasks s)) (le_n _)) as (A & B & _).
           assert (CL : In (n_now (p_net s), POCall (List.length (p_tasks s)) x) (tr ++ pstamp (n_now (p_net s)) (map PONet [] ++ [POCall (List.length (p_tasks s)) x] ++ tail_of (p_net s) (List.length (p_tasks s)) (start x)))) by (apply in_or_app; right; left; reflexivity).
           destruct x as [|v od].
           ++ left. split; [eauto|]. change (pc_of (p_net s) (start PAssoc)) with (PSusp (next (p_net s)) PGet). unfold assoc_few. rewrite questions_app, sends_app, A, B, SQ, SS. split; reflexivity.
           ++ right. exists v, od. split; [eauto|]. unfold sensor_few. rewrite questions_app, sends_app, A, B, SQ, SS. unfold start. destruct (Z.ltb_spec v 5); cbn; (split; [reflexivity|]); [left; lia|split; reflexivity].
        -- destruct (f_task _ _ I _ _ Q) as [[[n1 CL] [K1 K2]]|(v & od & _ & _ & [])]. left. split; [exists n1; apply in_or_app; auto|]. 
           destruct r as [b|x]; [rewrite ask_group_is in *|]; cbn [pc_of assoc_few q_of s_of] in *; rewrite questions_app, sends_app, !app_length, SQ, SS; cbn [length]; lia.
      * destruct (SEEN t') as [SQ SS]. destruct (Nat.eqb_spec t t') as [E|_]; [congruence|]. destruct (f_task _ _ I _ _ Y) as [[[n1 K0] K]|(v & od & [n1 K0] & K)]; [left; split; [exists n1; apply in_or_app; auto|]|right; exists v, od; split; [exists n1; apply in_or_app; auto|apply sensor_keep2; assumption]].
        eapply assoc_keep; [exact K|exact SQ|exact SS|]. destruct TN as [e0 n0 osn0 u r t0 w gs1 ts1 a0 SN R Q G|x|t0 r Q]; [|apply le_n|apply le_n]. exact (got_length _ _ _ _ _ _ _ _ G).
    + intros t' Q'. destruct (put_len t (pc_of n a) (p_tasks s)) as [PL1 PL2]. specialize (PL2 TL). destruct (f_new _ _ I t' ltac:(lia)) as (A & B & D). destruct (SEEN t') as [SQ SS]. destruct (Nat.eqb_spec t t') as [E|_]; [lia|].
      rewrite questions_app, sends_app, A, B, SQ, SS. split; [reflexivity|]. split; [reflexivity|]. intros n0 x J. apply in_app_or in J as [J|J]; [exact (D _ _ J)|]. destruct (CALLS _ _ _ J) as (_ & -> & _). lia.
    + intros n0 n1 t' x x' J J'. apply in_app_or in J as [J|J]; apply in_app_or in J' as [J'|J'].
      * exact (f_call _ _ I _ _ _ _ _ J J').
      * destruct (CALLS _ _ _ J') as (_ & -> & E & _). destruct (f_new _ _ I t ltac:(lia)) as (_ & _ & D). destruct (D _ _ J).
      * destruct (CALLS _ _ _ J) as (_ & -> & E & _). destruct (f_new _ _ I t ltac:(lia)) as (_ & _ & D). destruct (D _ _ J').
      * destruct (CALLS _ _ _ J) as (-> & _ & _ & E). destruct (CALLS _ _ _ J') as (-> & _ & _ & E'). split; congruence.
Qed.
Lemma few_exec c gs0 ts0 es s tr : pexec (pstate0 c gs0 ts0) es s tr -> few_inv s tr.
Proof.
  induction 1 as [|es s tr e s' os X IH ST].
  - constructor; cbn; try contradiction; try (intros [|?]; discriminate). auto.
  - eapply few_step; eassumption.
Qed.
Lemma called_task s tr n t x : few_inv s tr -> In (n, POCall t x) tr -> exists p, nth_error (p_tasks s) t = Some p.
Proof.
  intros I J. destruct (nth_error (p_tasks s) t) as [p|] eqn:Q; [eauto|]. apply nth_error_None in Q. destruct (f_new _ _ I t Q) as (_ & _ & D). destruct (D _ _ J).
Qed.
Lemma few_assoc c gs0 ts0 es s tr n t : pexec (pstate0 c gs0 ts0) es s tr -> In (n, POCall t PAssoc) tr -> (nq t tr <= 2 + length (p_groups s))%nat /\ (ns t tr <= 1)%nat.
Proof.
  intros X J. pose proof (few_exec _ _ _ _ _ _ X) as I. destruct (called_task _ _ _ _ _ I J) as (p & Q).
  destruct (f_task _ _ I _ _ Q) as [[_ K]|(v & od & [n1 K0] & _)]; [|destruct (f_call _ _ I _ _ _ _ _ J K0); discriminate]. destruct p as [u []| |]; cbn [assoc_few] in K; try contradiction; lia.
Qed.
Lemma few_sensor c gs0 ts0 es s tr n t v od : pexec (pstate0 c gs0 ts0) es s tr -> In (n, POCall t (PSensor v od)) tr ->
  ns t tr = 0%nat /\ ((nq t tr <= 1)%nat \/ exists m l, got_back t sensor_question (RMsg m) tr /\ getattr m "bitMask" = VSensors l /\ (nq t tr <= 1 + length (od l))%nat).
Proof.
  intros X J. pose proof (few_exec _ _ _ _ _ _ X) as I. destruct (called_task _ _ _ _ _ I J) as (p & Q).
  destruct (f_task _ _ I _ _ Q) as [[[n1 K0] _]|(v' & od' & [n1 K0] & K1 & K2)]; [destruct (f_call _ _ I _ _ _ _ _ J K0); discriminate|]. destruct (f_call _ _ I _ _ _ _ _ J K0) as [_ E]. injection E as <- <-. split; [exact K1|].
  destruct p as [u []| |]; try contradiction.
  - left. lia.
  - right. destruct K2 as (l & (m & l0 & A & B & ->) & C). exists m, l0. split; [exact A|]. split; [exact B|]. lia.
  - destruct K2 as [K2|(l & (m & l0 & A & B & ->) & C)]; [left; exact K2|right]. exists m, l0. auto.
Qed.

(** ** timely runs *)
Lemma timely_is D s0 es s tr : timely D s0 es s tr -> pexec s0 es s tr.
Proof. induction 1; econstructor; eassumption. Qed.
Lemma step_now s e s' os : pstep s e = Some (s', os) -> n_now (p_net s) <= n_now (p_net s') /\ ((forall dt, e <> PNet (NEvAdvance dt)) -> n_now (p_net s') = n_now (p_net s)) /\
  forall dt, e = PNet (NEvAdvance dt) -> 0 <= dt /\ n_now (p_net s') = n_now (p_net s) + dt /\ os = [] /\ p_tasks s' = p_tasks s.
Proof.
  intros ST. destruct (step_cases s e s' os ST) as [(e' & n & osn & -> & SN & -> & -> & NW)|(n & osn & t & hd & gs & ts & a & n' & TN & NA & -> & ->)]; cbn [p_net p_tasks].
  - destruct (step_tasks _ _ _ _ SN) as (_ & _ & _ & _ & _ & _ & _ & A & B). split; [exact A|]. split.
    + intros ND. destruct e' as [dt| | | | | |]; try exact B. destruct (ND dt eq_refl).
    + intros dt E. injection E as ->. cbn in SN. destruct (Z.leb_spec 0 dt); [|discriminate]. injection SN as <- <-. auto.
  - destruct (turn_net _ _ _ _ _ _ _ _ _ TN) as (NT & _ & _ & _ & NS).
    assert (N' : n_now n' = n_now n) by (destruct a; cbn [net_after] in NA; try (subst; reflexivity); destruct (step_tasks _ _ _ _ NA) as (_ & _ & _ & _ & _ & _ & _ & _ & B); exact B).
    split; [lia|]. split; [lia|]. intros dt ->. exfalso. inversion TN; subst. match goal with K : nstep _ (NEvAdvance _) = _ |- _ => cbn in K; destruct (0 <=? dt); [|discriminate]; injection K as <- <- end. discriminate.
Qed.
Lemma timely_net D c gs ts es s tr : timely D (pstate0 c gs ts) es s tr -> exists nes, nprompt nstate0 nes (p_net s) (nets tr).
Proof.
  induction 1 as [|es s tr e s' os X [nes IH] ST TM]; [exists []; constructor|].
  destruct (step_cases s e s' os ST) as [(e' & n & osn & -> & SN & -> & -> & NW)|(n & osn & t & hd & gs1 & ts1 & a & n' & TN & NA & -> & ->)]; cbn [p_net].
  - exists (nes ++ [e']). rewrite nets_app, nets_map. apply NR_snoc; [exact IH|exact SN|]. intros dt d u -> R. exact (proj1 (TM dt eq_refl) d u R).
  - destruct (turn_net _ _ _ _ _ _ _ _ _ TN) as (NT & HN & HA & _ & NS).
    assert (X1 : exists es, nprompt nstate0 es n (nets tr ++ nstamp (n_now (p_net s)) osn)).
    { destruct NS as [(-> & -> & _)|(e' & u & r & w & -> & SN & _)]; [exists nes; cbn; rewrite app_nil_r; exact IH|]. exists (nes ++ [e']). apply NR_snoc; [exact IH|exact SN|]. intros dt d u' -> R. exact (proj1 (TM dt eq_refl) d u' R). }
    destruct X1 as [es1 X1]. rewrite nets_app, !stamp_app, !nets_app, nets_map, HN. cbn [app]. rewrite nets_tail, app_assoc. destruct a as [q h w|q|r]; cbn [net_after] in NA.
    + exists (es1 ++ [NEvCall (NReq h 3000)]). assert (Y : nprompt nstate0 (es1 ++ [NEvCall (NReq h 3000)]) n' ((nets tr ++ nstamp (n_now (p_net s)) osn) ++ nstamp (n_now n) [NCall (next n) (NReq h 3000)])) by (apply NR_snoc; [exact X1|exact NA|intros; discriminate]).
      rewrite NT in Y. exact Y.
    + subst n'. exists es1. rewrite app_nil_r. exact X1.
    + subst n'. exists es1. rewrite app_nil_r. exact X1.
Qed.
Lemma in_past c gs ts es s tr n o : pexec (pstate0 c gs ts) es s tr -> In (n, o) tr -> n <= n_now (p_net s).
Proof.
  induction 1 as [|es s tr e s' os X IH ST]; intros J; [destruct J|]. destruct (step_now _ _ _ _ ST) as [A _]. apply in_app_or in J as [J|J]; [specialize (IH J); lia|]. apply in_stamp in J as [-> _]. exact A.
Qed.
(** what a step shows *)
Lemma step_asks s e s' os t u q : pstep s e = Some (s', os) -> In (POAsk t u q) os -> (forall dt, e <> PNet (NEvAdvance dt)) /\ exists h, In (PONet (NCall u (NReq h 3000))) os.
Proof.
  intros ST J. split; [intros dt ->; destruct (step_now _ _ _ _ ST) as (_ & _ & A); destruct (A dt eq_refl) as (_ & _ & -> & _); destruct J|].
  destruct (step_cases s e s' os ST) as [(e' & n & osn & -> & SN & -> & -> & NW)|(n & osn & t0 & hd & gs & ts & a & n' & TN & NA & -> & ->)].
  - apply in_map_iff in J as (? & ? & _). discriminate.
  - destruct (turn_net _ _ _ _ _ _ _ _ _ TN) as (_ & _ & HA & _ & _). apply in_app_or in J as [J|J]; [apply in_map_iff in J as (? & ? & _); discriminate|]. apply in_app_or in J as [J|J]; [destruct (HA _ _ _ J)|].
    destruct a as [q' h w|q'|r]; cbn [tail_of] in J; [|destruct J as [J|[]]; discriminate..]. destruct J as [J|[J|[]]]; [|discriminate]. injection J as <- <- <-. exists h. do 2 (apply in_or_app; right). right. left. reflexivity.
Qed.
Lemma step_sent s e s' os u r : pstep s e = Some (s', os) -> In (PONet (NSent u r)) os -> e = PNet (NEvSent u r).
Proof.
  intros ST J. destruct (step_cases s e s' os ST) as [(e' & n & osn & -> & SN & -> & -> & NW)|(n & osn & t0 & hd & gs & ts & a & n' & TN & NA & -> & ->)].
  - apply in_map_iff in J as (o & E & J). injection E as ->. destruct (step_tasks _ _ _ _ SN) as (_ & _ & _ & _ & _ & OS & _). apply OS in J as ->. reflexivity.
  - destruct (turn_net _ _ _ _ _ _ _ _ _ TN) as (_ & _ & _ & HO & NS). apply in_app_or in J as [J|J].
    + apply in_map_iff in J as (o & E & J). injection E as ->. destruct NS as [(_ & -> & _)|(e' & u' & r' & w & -> & SN & _)]; [destruct J|]. destruct (step_tasks _ _ _ _ SN) as (_ & _ & _ & _ & _ & OS & _). apply OS in J as ->. reflexivity.
    + apply in_app_or in J as [J|J]; [destruct (HO _ J)|]. destruct a; cbn [tail_of] in J; repeat (destruct J as [J|J]; [discriminate J|]); destruct J.
Qed.
Lemma ask_call c gs ts es s tr n t u q : pexec (pstate0 c gs ts) es s tr -> In (n, POAsk t u q) tr -> exists m h, In (m, NCall u (NReq h 3000)) (nets tr).
Proof.
  induction 1 as [|es s tr e s' os X IH ST]; intros J; [destruct J|]. apply in_app_or in J as [J|J].
  - destruct (IH J) as (m & h & K). exists m, h. rewrite nets_app. apply in_or_app. auto.
  - apply in_stamp in J as [_ J]. destruct (step_asks _ _ _ _ _ _ _ ST J) as (_ & h & K). exists (n_now (p_net s)), h. apply in_nets. apply in_or_app. right. apply in_stamp. auto.
Qed.
Section Timely.
Variable D : Z.
Hypothesis D0 : 0 <= D.
Variable c0 : classes.
Variable gs0 : groupings.
Variable ts0 : list (Z * Z).
Notation s0 := (pstate0 c0 gs0 ts0).
(** sending a question takes no longer than [D] *)
Lemma sending_time es s tr : timely D s0 es s tr -> forall T t u q, In (T, POAsk t u q) tr ->
  (forall m r, In (m, PONet (NSent u r)) tr -> m <= T + D) /\ ((forall m r, ~ In (m, PONet (NSent u r)) tr) -> (forall m r, ~ In (m, PONet (NRet u r)) tr) -> n_now (p_net s) <= T + D).
Proof.
  induction 1 as [|es s tr e s' os PX IH ST TM]; intros T t u q J; [destruct J|]. pose proof (timely_is _ _ _ _ _ PX) as X. destruct (step_now _ _ _ _ ST) as (NL & NE & NA).
  apply in_app_or in J as [J|J].
  - destruct (IH _ _ _ _ J) as [A B]. split.
    + intros m r K. apply in_app_or in K as [K|K]; [eauto|]. apply in_stamp in K as [-> K]. apply (step_sent _ _ _ _ _ _ ST) in K. subst e.
      destruct (linked_exec _ _ _ _ _ _ X) as [L _]. destruct (l_net _ _ L) as [nes N].
      assert (exists x, nth_error (n_tasks (p_net s)) u = Some x /\ n_pc x = NSending) as (x & Q & P).
      { cbn [pstep] in ST. destruct (nstep (p_net s) (NEvSent u r)) as [[n o]|] eqn:Y; [|discriminate]. cbn [nstep] in Y. destruct (nth_error (n_tasks (p_net s)) u) as [[c p]|]; [|discriminate]. exists (mkNT c p). split; [reflexivity|]. destruct c, p; try discriminate Y; reflexivity. }
      pose proof (NodeLive.stage_exec _ _ _ N _ _ Q) as SG. rewrite P in SG. destruct SG as (_ & S1 & S2). apply B; intros m r'; rewrite <- in_nets; auto.
    + intros NS NR. assert (NS' : forall m r, ~ In (m, PONet (NSent u r)) tr) by (intros m r K; apply (NS m r); apply in_or_app; auto). assert (NR' : forall m r, ~ In (m, PONet (NRet u r)) tr) by (intros m r K; apply (NR m r); apply in_or_app; auto).
      specialize (B NS' NR'). destruct e as [e'|x|t' r]; [|rewrite NE by discriminate; exact B..]. destruct e' as [dt| | | | | |]; try (rewrite NE by discriminate; exact B).
      destruct (NA dt eq_refl) as (_ & -> & _). destruct (TM dt eq_refl) as (_ & K & _). exact (K _ _ _ _ J NS' NR').
  - apply in_stamp in J as [-> J]. destruct (step_asks _ _ _ _ _ _ _ ST J) as [ND _]. rewrite (NE ND). split; [|lia]. intros m r K.
    pose proof (in_past _ _ _ _ _ _ _ _ (PX_snoc _ _ _ _ _ _ _ X ST) K) as P. rewrite (NE ND) in P. lia.
Qed.
(** a question is over three seconds after it was sent *)
Lemma asking_time es s tr : timely D s0 es s tr -> forall T t u q, In (T, POAsk t u q) tr -> (forall m r, ~ In (m, PONet (NRet u r)) tr) -> n_now (p_net s) <= T + (D + 3000).
Proof.
  intros PX T t u q J NR. pose proof (timely_is _ _ _ _ _ PX) as X. destruct (sending_time _ _ _ PX _ _ _ _ J) as [A B]. destruct (timely_net _ _ _ _ _ _ _ PX) as [nes N]. pose proof (NodeLive.prompt_is _ _ _ N) as N1.
  destruct (ask_call _ _ _ _ _ _ _ _ _ _ X J) as (m & h & C). destruct (call_task _ _ _ N1 _ _ _ C) as (x & Q & CX). pose proof (NodeLive.stage_exec _ _ _ N1 _ _ Q) as SG. rewrite CX in SG.
  assert (W : forall T', In (T', NSent u (Ok true)) (nets tr) -> n_now (p_net s) <= T + (D + 3000)).
  { intros T' W. destruct (NodeLive.in_time _ _ _ _ _ _ T' N C W) as [_ K]. specialize (A _ _ (proj1 (in_nets _ _ _) W)). cbn in K. assert (n_now (p_net s) <= T' + 3000); [|lia]. apply K. intros m' r'. rewrite in_nets. apply NR. }
  destruct (n_pc x) as [|h' f dl ph|h' f|r]; cbn in SG.
  - destruct SG as (_ & S1 & S2). assert (n_now (p_net s) <= T + D); [|lia]. apply B; intros m' r'; rewrite <- in_nets; auto.
  - destruct SG as ((T' & W' & _) & _). exact (W _ W').
  - destruct SG as ((T' & W') & _). exact (W _ W').
  - destruct SG as (m' & K). apply in_nets in K. destruct (NR _ _ K).
Qed.

(** sending the command takes no longer than [D] *)
Lemma step_sends s e s' os t q : pstep s e = Some (s', os) -> In (POSend t q) os -> forall dt, e <> PNet (NEvAdvance dt).
Proof. intros ST J dt ->. destruct (step_now _ _ _ _ ST) as (_ & _ & A). destruct (A dt eq_refl) as (_ & _ & -> & _). destruct J. Qed.
Lemma command_time es s tr : timely D s0 es s tr -> forall T t q, In (T, POSend t q) tr -> (forall m r, ~ In (m, POSent t r) tr) -> n_now (p_net s) <= T + D.
Proof.
  induction 1 as [|es s tr e s' os PX IH ST TM]; intros T t q J NS; [destruct J|]. destruct (step_now _ _ _ _ ST) as (NL & NE & NA). assert (NS' : forall m r, ~ In (m, POSent t r) tr) by (intros m r K; apply (NS m r); apply in_or_app; auto).
  apply in_app_or in J as [J|J].
  - specialize (IH _ _ _ J NS'). destruct e as [e'|x|t' r]; [|rewrite NE by discriminate; exact IH..]. destruct e' as [dt| | | | | |]; try (rewrite NE by discriminate; exact IH).
    destruct (NA dt eq_refl) as (_ & -> & _). destruct (TM dt eq_refl) as (_ & _ & K). exact (K _ _ _ J NS').
  - apply in_stamp in J as [-> J]. rewrite (NE (step_sends _ _ _ _ _ _ ST J)). lia.
Qed.
Lemma old_task es s tr : pexec s0 es s tr -> forall m t o, In (m, o) tr -> (exists r, o = POSent t r) \/ (exists r, o = PODone t r) -> (t < length (p_tasks s))%nat.
Proof.
  induction 1 as [|es s tr e s' os X IH ST]; intros m t o J K; [destruct J|].
  destruct (step_cases s e s' os ST) as [(e' & n & osn & -> & SN & -> & -> & NW)|(n & osn & t' & hd & gs & ts & a & n' & TN & NA & -> & ->)]; cbn [p_tasks].
  - apply in_app_or in J as [J|J]; [exact (IH _ _ _ J K)|]. apply in_stamp in J as [_ J]. apply in_map_iff in J as (? & <- & _). destruct K as [[? K]|[? K]]; discriminate.
  - pose proof (turn_len _ _ _ _ _ _ _ _ _ TN) as TL. destruct (put_len t' (pc_of n a) (p_tasks s)) as [PL1 PL2]. specialize (PL2 TL). apply in_app_or in J as [J|J]; [specialize (IH _ _ _ J K); lia|]. apply in_stamp in J as [_ J].
    assert (t = t'); [|subst; exact PL2]. apply in_app_or in J as [J|J]; [apply in_map_iff in J as (? & <- & _); destruct K as [[? K]|[? K]]; discriminate|]. apply in_app_or in J as [J|J].
    + destruct TN as [e0 n1 osn0 u r0 t1 w gs1 ts1 a0 _ _ Q1 G|x|t1 r0 Q1]; [destruct J|destruct J as [<-|[]]; destruct K as [[? K]|[? K]]; discriminate|destruct J as [<-|[]]; destruct K as [[? K]|[? K]]; [congruence|discriminate]].
    + destruct a; cbn [tail_of] in J; repeat (destruct J as [<-|J]; [destruct K as [[? K]|[? K]]; discriminate K || congruence|]); destruct J.
Qed.
(** when task [t], called at [n], is where it is *)
Definition spent (q s : nat) : Z := Z.of_nat q * (D + 3000) + Z.of_nat s * D.
Definition unsent (t : nat) (tr : ptrace) : Prop := forall m r, ~ In (m, POSent t r) tr.
Definition timing (n : Z) (tr : ptrace) (t : nat) (p : ppc) : Prop :=
  (forall m r, In (m, PODone t r) tr -> m <= n + allowed D t tr) /\
  match p with
  | PSusp u w => (exists T q, In (T, POAsk t u q) tr /\ T + (D + 3000) <= n + allowed D t tr) /\ (w = PLast \/ unsent t tr)
  | PSending => (exists T q, In (T, POSend t q) tr /\ T + D <= n + allowed D t tr) /\ unsent t tr
  | PEnd r => exists m, In (m, PODone t r) tr
  end.
Lemma allowed_app t a b : allowed D t (a ++ b) = allowed D t a + allowed D t b.
Proof. unfold allowed. rewrite questions_app, sends_app, !app_length. lia. Qed.
Lemma allowed_pos t a : 0 <= allowed D t a. Proof. unfold allowed. nia. Qed.
Definition cost (a : pact) : Z := match a with QAsk _ _ _ => D + 3000 | QSend _ => D | QRes _ => 0 end.
Lemma allowed_turn s e n osn t hd gs ts a T : turn s e n osn t hd gs ts a -> allowed D t (pstamp T (map PONet osn ++ hd ++ tail_of n t a)) = cost a.
Proof. intros TN. destruct (turn_seen _ _ _ _ _ _ _ _ _ T t TN) as [Q S]. unfold allowed. rewrite Q, S, Nat.eqb_refl. destruct a; cbn [q_of s_of length cost]; lia. Qed.
(** the turn of task [t]: it comes in time, and so does what follows *)
Lemma timing_turn n0 s tr e n osn t hd gs ts a : turn s e n osn t hd gs ts a -> n_now (p_net s) <= n0 + allowed D t tr -> (forall m r, In (m, PODone t r) tr -> m <= n0 + allowed D t tr) ->
  (match a with QAsk _ _ w => w = PLast \/ (unsent t tr /\ forall r, ~ In (POSent t r) hd) | QSend _ => unsent t tr /\ forall r, ~ In (POSent t r) hd | QRes _ => True end) ->
  timing n0 (tr ++ pstamp (n_now (p_net s)) (map PONet osn ++ hd ++ tail_of n t a)) t (pc_of n a).
Proof.
  intros TN NOW DN US. set (T := n_now (p_net s)) in *. pose proof (allowed_turn _ _ _ _ _ _ _ _ _ T TN) as AT. assert (C0 : 0 <= cost a) by (destruct a; cbn; lia).
  assert (UN : unsent t tr -> (forall r, ~ In (POSent t r) hd) -> unsent t (tr ++ pstamp T (map PONet osn ++ hd ++ tail_of n t a))).
  { intros A B m r J. apply in_app_or in J as [J|J]; [exact (A _ _ J)|]. apply in_stamp in J as [_ J]. apply in_app_or in J as [J|J]; [apply in_map_iff in J as (? & ? & _); discriminate|]. apply in_app_or in J as [J|J]; [exact (B _ J)|].
    destruct a; cbn [tail_of] in J; repeat (destruct J as [J|J]; [discriminate J|]); destruct J. }
  assert (LAST : forall o, In o (tail_of n t a) -> In (T, o) (tr ++ pstamp T (map PONet osn ++ hd ++ tail_of n t a))) by (intros o J; apply in_or_app; right; apply in_stamp; split; [reflexivity|]; do 2 (apply in_or_app; right); exact J).
  unfold timing. rewrite allowed_app, AT. split.
  - intros m r J. apply in_app_or in J as [J|J]; [apply DN in J; lia|]. apply in_stamp in J as [-> _]. lia.
  - destruct a as [q h w|q|r]; cbn [pc_of cost] in *.
    + split; [exists T, q; split; [apply LAST; left; reflexivity|lia]|]. destruct US as [US|[A B]]; [left; exact US|right; exact (UN A B)].
    + destruct US as [A B]. split; [exists T, q; split; [apply LAST; left; reflexivity|lia]|exact (UN A B)].
    + exists T. apply LAST. left. reflexivity.
Qed.
Lemma timing_keep n tr T os t p : timing n tr t p -> (forall r, ~ In (POSent t r) os) -> (forall r, ~ In (PODone t r) os) -> timing n (tr ++ pstamp T os) t p.
Proof.
  intros [A B] S DN. pose proof (allowed_pos t (pstamp T os)) as P. unfold timing. rewrite allowed_app.
  assert (US : unsent t tr -> unsent t (tr ++ pstamp T os)) by (intros U m r J; apply in_app_or in J as [J|J]; [exact (U _ _ J)|]; apply in_stamp in J as [_ J]; exact (S _ J)).
  split; [intros m r J; apply in_app_or in J as [J|J]; [apply A in J; lia|apply in_stamp in J as [_ J]; destruct (DN _ J)]|].
  destruct p as [u w| |r].
  - destruct B as [(T' & q & J & L) U]. split; [exists T', q; split; [apply in_or_app; auto|lia]|tauto].
  - destruct B as [(T' & q & J & L) U]. split; [exists T', q; split; [apply in_or_app; auto|lia]|auto].
  - destruct B as (m & J). exists m. apply in_or_app. auto.
Qed.
Lemma got_unsent c w r gs ts gs' ts' a : got c w r gs ts = (gs', ts', a) -> match a with QRes _ => True | _ => w <> PLast end.
Proof.
  intros G. destruct w as [|i size rest| |order|k rest]; try (destruct a; try exact I; discriminate). cbn [got] in G. destruct r as [m|e]; [destruct (record_group 1 m gs)|]; injection G as <- <- <-; exact I.
Qed.
(** when it may go on: it is not late *)
Lemma not_late es s tr n t p : timely D s0 es s tr -> nth_error (p_tasks s) t = Some p -> (forall r, p <> PEnd r) -> timing n tr t p -> n_now (p_net s) <= n + allowed D t tr.
Proof.
  intros PX Q NE [_ B]. pose proof (timely_is _ _ _ _ _ PX) as X. destruct p as [u w| |r]; [| |destruct (NE r eq_refl)].
  - destruct B as [(T & q & J & LE) _]. assert (n_now (p_net s) <= T + (D + 3000)); [|lia]. apply (asking_time _ _ _ PX _ _ _ _ J). intros m r K.
    destruct (susp_net _ _ _ _ _ _ _ _ _ X Q) as (_ & _ & nes & p & _ & _ & ND & SG). apply in_nets in K. destruct p as [|h f dl ph|h f|r']; cbn in SG; [destruct SG as (_ & _ & SG)|destruct SG as (_ & SG)|destruct SG as (_ & SG)|destruct (ND _ eq_refl)]; exact (SG _ _ K).
  - destruct B as [(T & q & J & LE) U]. pose proof (command_time _ _ _ PX _ _ _ J U). lia.
Qed.
Lemma timing_exec es s tr : timely D s0 es s tr -> forall n t c, In (n, POCall t c) tr -> exists p, nth_error (p_tasks s) t = Some p /\ timing n tr t p.
Proof.
  induction 1 as [|es s tr e s' os PX IH ST TM]; intros n0 t0 c J; [destruct J|]. pose proof (timely_is _ _ _ _ _ PX) as X. pose proof (few_exec _ _ _ _ _ _ X) as FI. pose proof (few_exec _ _ _ _ _ _ (PX_snoc _ _ _ _ _ _ _ X ST)) as FI'.
  destruct (step_cases s e s' os ST) as [(e' & n & osn & -> & SN & -> & -> & NW)|(n & osn & t & hd & gs & ts & a & n' & TN & NA & -> & ->)]; cbn [p_tasks].
  - apply in_app_or in J as [J|J]; [|apply in_stamp in J as [_ J]; apply in_map_iff in J as (? & ? & _); discriminate]. destruct (IH _ _ _ J) as (p & Q & TI). exists p. split; [exact Q|]. apply timing_keep; [exact TI| |]; intros r K; apply in_map_iff in K as (? & ? & _); discriminate.
  - pose proof (turn_len _ _ _ _ _ _ _ _ _ TN) as TL. apply in_app_or in J as [J|J].
    + destruct (IH _ _ _ J) as (p & Q & TI). destruct (Nat.eq_dec t0 t) as [->|NE].
      * assert (NP : forall r, p <> PEnd r). { intros r ->. destruct TN as [e0 n1 osn0 u r0 t1 w gs1 ts1 a0 _ _ Q1 G|x|t1 r0 Q1]; [congruence| |congruence]. apply nth_lt in Q. lia. }
        exists (pc_of n a). split; [apply at_put, TL|]. apply timing_turn with (gs := gs) (ts := ts) (e := e); [exact TN|exact (not_late _ _ _ _ _ _ PX Q NP TI)|exact (proj1 TI)|].
        destruct TN as [e0 n1 osn0 u r0 t1 w gs1 ts1 a0 _ _ Q1 G|x|t1 r0 Q1].
        -- rewrite Q in Q1. injection Q1 as ->. pose proof (got_unsent _ _ _ _ _ _ _ _ G) as GU. destruct TI as (_ & _ & [->|U]); destruct a0; try exact I; try (destruct (GU eq_refl)); [right|]; (split; [exact U|intros ? []]).
        -- apply nth_lt in Q. lia.
        -- destruct r0 as [b|x]; [rewrite ask_group_is; left; reflexivity|exact I].
      * exists p. split; [apply other_put; assumption|]. apply timing_keep; [exact TI| |]; intros r K; apply in_app_or in K as [K|K]; try (apply in_map_iff in K as (? & ? & _); discriminate); apply in_app_or in K as [K|K].
        -- destruct TN as [e0 n1 osn0 u r0 t1 w gs1 ts1 a0 _ _ Q1 G|x|t1 r0 Q1]; [destruct K|destruct K as [K|[]]; discriminate|destruct K as [K|[]]; congruence].
        -- destruct a; cbn [tail_of] in K; repeat (destruct K as [K|K]; [discriminate K|]); destruct K.
        -- destruct TN as [e0 n1 osn0 u r0 t1 w gs1 ts1 a0 _ _ Q1 G|x|t1 r0 Q1]; [destruct K|destruct K as [K|[]]; discriminate|destruct K as [K|[]]; discriminate].
        -- destruct a; cbn [tail_of] in K; repeat (destruct K as [K|K]; [discriminate K || congruence|]); destruct K.
    + apply in_stamp in J as [-> J]. apply in_app_or in J as [J|J]; [apply in_map_iff in J as (? & ? & _); discriminate|]. apply in_app_or in J as [J|J]; [|destruct a; cbn [tail_of] in J; repeat (destruct J as [J|J]; [discriminate J|]); destruct J].
      pose proof TN as TN0. destruct TN as [e0 n1 osn0 u r0 t1 w gs1 ts1 a0 _ _ Q1 G|x|t1 r0 Q1]; [destruct J| |destruct J as [J|[]]; discriminate]. destruct J as [J|[]]. injection J as <- <-.
      exists (pc_of (p_net s) (start x)). split; [apply at_put; apply le_n|].
      assert (NO : forall m o, In (m, o) tr -> (exists r, o = POSent (length (p_tasks s)) r) \/ (exists r, o = PODone (length (p_tasks s)) r) -> False) by (intros m o J K; pose proof (old_task _ _ _ X _ _ _ J K); lia).
      apply (timing_turn _ _ _ _ _ _ _ _ _ _ _ TN0); [pose proof (allowed_pos (length (p_tasks s)) tr); lia| |].
      * intros m r K. exfalso. eauto 6.
      * assert (A : unsent (length (p_tasks s)) tr) by (intros m r K; exact (NO _ _ K (or_introl (ex_intro _ r eq_refl)))). assert (B : forall r, ~ In (POSent (length (p_tasks s)) r) [POCall (length (p_tasks s)) x]) by (intros r [K|[]]; discriminate).
        destruct (start x); auto.
Qed.
(** the interview ends in time *)
Lemma in_time es s tr n t c : timely D s0 es s tr -> In (n, POCall t c) tr ->
  (forall m r, In (m, PODone t r) tr -> m <= n + allowed D t tr) /\ ((forall m r, ~ In (m, PODone t r) tr) -> n_now (p_net s) <= n + allowed D t tr).
Proof.
  intros PX J. destruct (timing_exec _ _ _ PX _ _ _ J) as (p & Q & TI). split; [exact (proj1 TI)|]. intros ND. apply (not_late _ _ _ _ _ _ PX Q); [|exact TI]. intros r ->. destruct TI as (_ & m & K). exact (ND _ _ K).
Qed.
End Timely.

(** checking that a run is timely *)
Definition settled (p : pobs -> bool) (tr : ptrace) : bool := existsb (fun x => p (snd x)) tr.
Definition pidle (D : Z) (s : pstate) (tr : ptrace) (dt : Z) : bool :=
  nidle (p_net s) dt && forallb (fun x => match x with
    | (n, POAsk _ u _) => settled (fun o => match o with PONet (NSent v _) | PONet (NRet v _) => Nat.eqb v u | _ => false end) tr || (n_now (p_net s) + dt <=? n + D)
    | (n, POSend t _) => settled (fun o => match o with POSent v _ => Nat.eqb v t | _ => false end) tr || (n_now (p_net s) + dt <=? n + D)
    | _ => true
    end) tr.
Fixpoint timely_of (D : Z) (s : pstate) (tr : ptrace) (es : list pevent) : option (pstate * ptrace) :=
  match es with
  | [] => Some (s, tr)
  | e :: es' => if match e with PNet (NEvAdvance dt) => pidle D s tr dt | _ => true end then
      match pstep s e with Some (s', os) => timely_of D s' (tr ++ pstamp (n_now (p_net s)) os) es' | None => None end else None
  end.
Lemma timely_ok D s0 es2 : forall es s tr s' tr', timely D s0 es s tr -> timely_of D s tr es2 = Some (s', tr') -> timely D s0 (es ++ es2) s' tr'.
Proof.
  induction es2 as [|e es2 IH]; intros es s tr s' tr' X E; cbn [timely_of] in E; [injection E as <- <-; rewrite app_nil_r; exact X|].
  destruct (match e with PNet (NEvAdvance dt) => pidle D s tr dt | _ => true end) eqn:I; [|discriminate]. destruct (pstep s e) as [[s1 os]|] eqn:S; [|discriminate].
  change (e :: es2) with ([e] ++ es2). rewrite app_assoc. apply (IH _ s1 (tr ++ pstamp (n_now (p_net s)) os)); [|exact E]. apply TI_snoc; [exact X|exact S|]. intros dt ->. apply andb_prop in I as [I1 I2].
  assert (NO : forall p, settled p tr = true -> exists m o, In (m, o) tr /\ p o = true) by (intros p H; apply existsb_exists in H as ([m o] & H1 & H2); eauto).
  split; [intros d u L; exact (nidle_ok _ _ _ _ I1 L)|]. pose proof (proj1 (forallb_forall _ _) I2) as K. split.
  - intros n t u q J NS NR. specialize (K _ J). cbn in K. apply orb_prop in K as [K|K]; [|lia]. exfalso. apply NO in K as (m & o & A & B). destruct o as [[ | | |]| | | | |]; try discriminate B; apply Nat.eqb_eq in B; subst; [exact (NS _ _ A)|exact (NR _ _ A)].
  - intros n t q J NS. specialize (K _ J). cbn in K. apply orb_prop in K as [K|K]; [|lia]. exfalso. apply NO in K as (m & o & A & B). destruct o; try discriminate B; apply Nat.eqb_eq in B; subst. exact (NS _ _ A).
Qed.
