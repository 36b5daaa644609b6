(** Proofs for C117: interviews of nodes end. *)
From Coq Require Import String ZArith List Bool Lia Arith.
From Verif Require Import Py Schema Registry Codec Waiter Conn ConnLemmas NodeReq SpecNodeReq SpecNodeLive NodeReqProofs NodeLive InterviewM SpecInterview SpecInterviewLive InterviewProofs.
From Verif Require InterviewVisit.
Import ListNotations.
Open Scope list_scope.
Open Scope string_scope.
Open Scope list_scope.
Open Scope Z_scope.

(** ** what questions and other interviews cost, with [wq] for a question and [wo] for another interview *)
Section Budget.
Variables wq wo : nat.
Definition price (o : iobs) : nat := match o with OAsk _ _ _ => wq | OOwn _ _ => wo | _ => 0 end.
Definition total (os : list iobs) : nat := list_sum (map price os).
Definition own_price (id : Z) : nat := match body_of id with BCopy _ _ _ => wq | BEnv => wo | BNone => 0 end.
Definition prices (ids : list Z) : nat := list_sum (map (fun id => wq + own_price id)%nat ids).
Definition frame_left (f : iframe) : nat := match f with FWrap id => own_price id | FNode rest => prices rest | _ => 0 end.
Definition left (fs : list iframe) : nat := list_sum (map frame_left fs).
Definition out_left (x : iout) : nat := match x with XWait _ fs => left fs | XRes _ => 0 end.
(** [B] pays for all of it, and something was begun if it waits *)
Definition within (B : nat) (g : igo) : Prop := let '(_, os, x) := g in (total os + out_left x <= B)%nat /\ match x with XWait _ _ => exists o, In o os /\ match o with OAsk _ _ _ | OOwn _ _ => True | _ => False end | XRes _ => True end.
Lemma total_app a b : total (a ++ b) = (total a + total b)%nat. Proof. unfold total. rewrite map_app, list_sum_app. reflexivity. Qed.
Lemma left_app a b : left (a ++ b) = (left a + left b)%nat. Proof. unfold left. rewrite map_app, list_sum_app. reflexivity. Qed.
Lemma total_nets os : total (map ONet os) = 0%nat. Proof. induction os; auto. Qed.
Lemma within_le A B g : within A g -> (A <= B)%nat -> within B g.
Proof. destruct g as [[s os] x]. intros [H K] L. split; [lia|exact K]. Qed.
Lemma within_note os B g : within B g -> within (total os + B) (inote os g).
Proof. destruct g as [[s os'] x]. intros [H K]. cbn [inote within]. rewrite total_app. split; [lia|]. destruct x as [w fs|]; [|exact I]. destruct K as (o & J & K). exists o. split; [apply in_or_app; auto|exact K]. Qed.
Lemma within_under f B g : within B g -> within (B + frame_left f) (iunder f g).
Proof. destruct g as [[s os] [w fs|r]]; intros [H K]; cbn [iunder within out_left] in *; (split; [|exact K]); [rewrite left_app; unfold left at 2; cbn|]; lia. Qed.
Lemma within_request t q h s : within wq (irequest t q h s).
Proof.
  unfold irequest. cbn [nstep]. destruct (add_session h (n_w (i_net s))) as [g w]. cbn [within out_left left map list_sum fold_right]. split; [|eexists; split; [left; reflexivity|exact I]].
  unfold total. cbn. lia.
Qed.
Lemma within_ask t id s : within wq (ask_version t id s).
Proof.
  unfold ask_version. destruct (id =? 0); [split; [cbn; lia|exact I]|]. rewrite version_new. eapply within_le; [apply within_under, within_request|]. cbn. lia.
Qed.
Lemma within_body_end id r s : within 0 (body_end id r s).
Proof. destruct r as [b|e]; [split; [cbn; lia|exact I]|]. destruct e; split; cbn; auto. Qed.
Lemma within_start_body t id v s : within (own_price id) (start_body t id v s).
Proof.
  unfold start_body, own_price. destruct (v =? 0); [split; [cbn; lia|exact I]|]. cbv zeta. destruct (body_of id) as [g r a| |] eqn:E.
  - rewrite (own_new _ _ _ _ E). eapply within_le; [apply within_under, within_request|]. cbn. lia.
  - apply within_body_end.
  - split; [cbn; lia|]. eexists. split; [left; reflexivity|exact I].
Qed.
Lemma within_start_class t id s : within (wq + own_price id) (start_class t id s).
Proof.
  unfold start_class. change (wq + own_price id)%nat with (total [OVisit t id] + (wq + own_price id))%nat. apply within_note. cbv zeta.
  destruct (k_version (i_cls s id) =? 0); [|eapply within_le; [apply within_start_body|lia]]. pose proof (within_ask t id s) as A. destruct (ask_version t id s) as [[s1 os1] x].
  destruct x as [w fs|[[v|r|]|e]]; try (exact (within_under (FWrap id) _ _ A)).
  eapply within_le; [apply within_note, within_start_body|]. destruct A as [A _]. cbn [out_left] in A. lia.
Qed.
Lemma within_visit t rest : forall s, within (prices rest) (visit t rest s).
Proof.
  induction rest as [|id rest IH]; intros s; [split; cbn; auto|]. cbn [visit]. pose proof (within_start_class t id s) as A. unfold prices. cbn [map list_sum fold_right]. fold (list_sum (map (fun id => wq + own_price id)%nat rest)). fold (prices rest).
  destruct (start_class t id s) as [[s1 os1] x].
  assert (G : forall r, within (wq + own_price id) (s1, os1, XRes r) -> within (wq + own_price id + prices rest) (inote os1 (visit t rest s1))).
  { intros r [H _]. eapply within_le; [apply within_note, IH|]. cbn [out_left] in H. lia. }
  destruct x as [w fs|[v|e]]; [|exact (G _ A)|].
  - destruct A as [A K]. split; [|exact K]. cbn [out_left] in *. rewrite left_app. unfold left at 2. cbn. lia.
  - destruct e; try exact (G _ A); (destruct A as [A _]; split; [cbn [out_left] in *; lia|exact I]).
Qed.
Lemma within_after t f r s : within (frame_left f) (after_frame t f r s).
Proof.
  destruct f, r as [[]|[]]; cbn [after_frame frame_left]; try (split; [cbn; lia|exact I]); first [apply within_start_body|apply within_visit].
Qed.
Lemma within_unwind t fs : forall r s, within (left fs) (unwind t fs r s).
Proof.
  induction fs as [|f fs IH]; intros r s; [split; cbn; auto|]. cbn [unwind]. change (left (f :: fs)) with (frame_left f + left fs)%nat. pose proof (within_after t f r s) as A.
  destruct (after_frame t f r s) as [[s1 os1] [w g|r']].
  - destruct A as [A K]. split; [|exact K]. cbn [out_left] in *. rewrite left_app. lia.
  - eapply within_le; [apply within_note, IH|]. destruct A as [A _]. cbn [out_left] in A. lia.
Qed.
End Budget.
Definition call_price (wq wo : nat) (ids : list Z) (c : icall) : nat := match c with CNode => prices wq wo ids | CClass id => wq + own_price wq wo id | CVersion _ => wq end%nat.
(** what a turn may cost *)
Lemma within_turn wq wo s e n osn t s1 hd g : turn s e n osn t s1 hd g ->
  within wq wo (match e with ICall c => call_price wq wo (i_ids s) c | _ => match nth_error (i_tasks s) t with Some (ISusp _ fs) => left wq wo fs | _ => 0 end end)%nat g /\ total wq wo hd = 0%nat.
Proof.
  intros [e' n' osn' u r t' fs s1' hd' r1 -> ST R Q F SH|c ->|t' r id fs s1' hd' r1 -> Q F].
  - rewrite Q. destruct (first_res fs r (netted s n')) as (s0 & hd0 & r0 & F0 & F1 & F2 & F3 & F4). rewrite F in F0. injection F0 as <- <- <-. split; [|destruct F4 as [->|[id ->]]; reflexivity].
    eapply within_le; [apply within_unwind|]. destruct fs as [|f fs]; [cbn; lia|]. cbn [tl]. change (left wq wo (f :: fs)) with (frame_left wq wo f + left wq wo fs)%nat. lia.
  - split; [|reflexivity]. destruct c as [|id|id]; cbn [call_price]; [apply within_visit|apply within_start_class|apply within_ask].
  - rewrite Q. split; [|].
    + eapply within_le; [apply within_unwind|]. change (left wq wo (FBody id :: fs)) with (left wq wo fs). lia.
    + unfold body_end in F. destruct r as [rv|x]; [injection F as <- <- <-; reflexivity|]. destruct x; injection F as <- <- <-; reflexivity.
Qed.
Lemma total_some os : (exists o, In o os /\ match o with OAsk _ _ _ | OOwn _ _ => True | _ => False end) -> (1 <= total 1 1 os)%nat.
Proof.
  intros (o & J & K). induction os as [|o' os IH]; [destruct J|]. change (total 1 1 (o' :: os)) with (price 1 1 o' + total 1 1 os)%nat. destruct J as [->|J]; [|specialize (IH J); lia]. destruct o; cbn in *; try contradiction; lia.
Qed.

(** ** runs *)
Lemma iexec_app s0 es s tr es2 s2 tr2 : iexec s0 es s tr -> iexec s es2 s2 tr2 -> iexec s0 (es ++ es2) s2 (tr ++ tr2).
Proof. intros A. induction 1 as [|es2 s2 tr2 e s' os X IH ST]; [rewrite !app_nil_r; exact A|]. rewrite !app_assoc. apply IX_snoc; assumption. Qed.
Lemma iexec_one s e s' os : istep s e = Some (s', os) -> iexec s [e] s' (istamp (n_now (i_net s)) os).
Proof. intros H. change [e] with ([] ++ [e]). change (istamp (n_now (i_net s)) os) with ([] ++ istamp (n_now (i_net s)) os). apply IX_snoc; [constructor|exact H]. Qed.
Lemma helps_more t a b e : helps t a e -> helps t (a ++ b) e.
Proof. destruct e as [e|x|t' r]; cbn; auto. destruct e; auto; intros (n & q & J); exists n, q; apply in_or_app; auto. Qed.
Lemma all_more t a b es : Forall (helps t a) es -> Forall (helps t (a ++ b)) es.
Proof. intros H. eapply Forall_impl; [|exact H]. intros e. apply helps_more. Qed.
Definition silent (es : list ievent) : Prop := Forall (fun e => match e with INet (NEvSent _ _) | IOwn _ _ => False | _ => True end) es.
Lemma silent_outcome net own es : silent es -> outcome net own es.
Proof. intros H i e N. apply nth_error_In in N. unfold silent in H. rewrite Forall_forall in H. specialize (H _ N). destruct e as [[]| |]; auto; contradiction. Qed.
Lemma outcome_app net own es1 es2 : outcome net own es1 -> outcome (fun i => net (length es1 + i)%nat) (fun i => own (length es1 + i)%nat) es2 -> outcome net own (es1 ++ es2).
Proof.
  intros A B i e N. destruct (Nat.lt_ge_cases i (length es1)) as [L|L].
  - rewrite nth_error_app1 in N by exact L. exact (A _ _ N).
  - rewrite nth_error_app2 in N by exact L. specialize (B _ _ N). cbv beta in B. replace (length es1 + (i - length es1))%nat with i in B by lia. exact B.
Qed.
Lemma outcome_one net own e : match e with INet (NEvSent _ r) => r = net 0%nat | IOwn _ r => r = own 0%nat | _ => True end -> outcome net own [e].
Proof. intros H [|[|i]] e' N; try discriminate N. injection N as <-. exact H. Qed.

(** ** a request goes on *)
Definition advanced (t : nat) (fs : list iframe) (s' : istate) (o : list iobs) : Prop :=
  (exists r, In (ODone t r) o) \/ exists w fs', nth_error (i_tasks s') t = Some (ISusp w fs') /\ (left 1 1 fs' < left 1 1 fs)%nat.
Lemma step_some s e n os : nstep (i_net s) e = Some (n, os) -> exists s' o, istep s (INet e) = Some (s', o).
Proof. intros H. cbn [istep]. rewrite H. destruct (match returned os with Some _ => _ | None => _ end) as [s' o]. eauto. Qed.
Lemma turn_advanced s e n osn t s1 hd s2 os2 x w fs pre cl ids : turn s e n osn t s1 hd (s2, os2, x) -> nth_error (i_tasks s) t = Some (ISusp w fs) -> (forall c, e <> ICall c) ->
  advanced t fs (mkI (i_net s2) ids cl (put t (pc_of x) (i_tasks s))) (pre ++ hd ++ os2 ++ fin t x).
Proof.
  intros TN Q NC. destruct (within_turn 1 1 _ _ _ _ _ _ _ _ TN) as [W _]. assert (W' : within 1 1 (left 1 1 fs) (s2, os2, x)) by (destruct e as [e'|c|t' r]; [|destruct (NC c eq_refl)|]; rewrite Q in W; exact W).
  destruct W' as [W1 W2]. destruct x as [w' fs'|r].
  - right. exists w', fs'. cbn [i_tasks pc_of]. split; [apply at_put; apply nth_lt in Q; lia|]. apply total_some in W2. cbn [out_left] in W1. lia.
  - left. exists r. do 3 (apply in_or_app; right). left. reflexivity.
Qed.
Lemma go_on s tr e n os t u fs : linked s tr -> nstep (i_net s) e = Some (n, os) -> nth_error (i_tasks s) t = Some (ISusp (WReq u) fs) -> (forall u' r, In (NRet u' r) os -> u' = u) ->
  exists s' o, istep s (INet e) = Some (s', o) /\
   (((forall r, ~ In (NRet u r) os) /\ i_net s' = n /\ nth_error (i_tasks s') t = Some (ISusp (WReq u) fs)) \/
    ((exists r, In (NRet u r) os) /\ advanced t fs s' o)).
Proof.
  intros L ST Q ONE. destruct (step_some _ _ _ _ ST) as (s' & o & H). exists s', o. split; [exact H|].
  destruct (step_cases s tr _ s' o L H) as [(e' & n0 & osn & E & ST' & -> & -> & NW)|(n0 & osn & t0 & s1 & hd & s2 & os2 & x & TN & C & -> & ->)].
  - injection E as <-. rewrite ST in ST'. injection ST' as <- <-. left. split; [intros r J; exact (NW u r t fs J Q)|]. split; [reflexivity|exact Q].
  - destruct (turn_net _ _ _ _ _ _ _ _ TN) as (_ & _ & _ & [(-> & ->)|(e'' & u1 & r1 & fs1 & E & ST' & Q1 & R1 & IR)]).
    + exfalso. inversion TN; subst; try discriminate. 
    + injection E as <-. rewrite ST in ST'. injection ST' as <- <-. apply returned_in in R1. pose proof (ONE _ _ R1) as ->. pose proof (l_uniq _ _ L _ _ _ _ _ Q Q1) as <-. right. split; [eauto|].
      eapply turn_advanced; [exact TN|exact Q|discriminate].
Qed.
Section Run.
Variable ids : list Z.
Variable cls0 : Z -> kcls.
Notation s0 := (istate0 ids cls0).
Lemma susp_net es s tr t u fs : iexec s0 es s tr -> nth_error (i_tasks s) t = Some (ISusp (WReq u) fs) ->
  linked s tr /\ (exists n q, In (n, OAsk t u q) tr) /\ exists nes p h, nexec nstate0 nes (i_net s) (nets tr) /\ nth_error (n_tasks (i_net s)) u = Some (mkNT (NReq h 3000) p) /\ (forall r, p <> NDone r) /\
    NodeLive.stage u (n_now (i_net s)) (NReq h 3000) p (nets tr).
Proof.
  intros X Q. pose proof (linked_exec _ _ _ _ _ X) as L. split; [exact L|]. destruct (l_susp _ _ L _ _ _ Q) as (p & q & h & n & A & B & C & _). split; [eauto|].
  destruct (l_net _ _ L) as [nes N]. exists nes, p, h. split; [exact N|]. split; [exact A|]. split; [exact B|]. exact (NodeLive.stage_exec _ _ _ N _ _ A).
Qed.
Definition moved (t : nat) (fs : list iframe) (s2 : istate) (tr2 : itrace) : Prop :=
  (exists n r, In (n, ODone t r) tr2) \/ exists w fs', nth_error (i_tasks s2) t = Some (ISusp w fs') /\ (left 1 1 fs' < left 1 1 fs)%nat.
Lemma advanced_moved T t fs s o pre : advanced t fs s o -> moved t fs s (pre ++ istamp T o).
Proof. intros [(r & J)|K]; [left; exists T, r; apply in_or_app; right; apply in_istamp; auto|right; exact K]. Qed.
Lemma moved_more t fs s a b : moved t fs s b -> moved t fs s (a ++ b).
Proof. intros [(n & r & J)|K]; [left; exists n, r; apply in_or_app; auto|right; exact K]. Qed.
(** it waits for its answer: it ends by itself *)
Lemma over_waiting k : forall es s tr t u fs, iexec s0 es s tr -> nth_error (i_tasks s) t = Some (ISusp (WReq u) fs) -> (forall h, nth_error (n_tasks (i_net s)) u <> Some (mkNT (NReq h 3000) NSending)) -> (NodeLive.left (i_net s) u <= k)%nat ->
  exists es2 s2 tr2, iexec s es2 s2 tr2 /\ Forall (helps t (tr ++ tr2)) es2 /\ silent es2 /\ moved t fs s2 tr2.
Proof.
  induction k as [|k IH]; intros es s tr t u fs X Q NS LE; destruct (susp_net _ _ _ _ _ _ X Q) as (L & BY & nes & p & h0 & N & E & ND & SG).
  - exfalso. unfold NodeLive.left in LE. rewrite E in LE. destruct p as [|h f dl []|h f|r]; cbn in LE; try lia. exact (ND r eq_refl).
  - assert (dt : {dt | 0 <= dt /\ forall h f dl ph, p = NWaiting h f dl ph -> dl <= n_now (i_net s) + dt}).
    { destruct p as [|h f dl ph|h f|r]; [exists 0|exists (Z.max 0 (dl - n_now (i_net s)))|exists 0|exists 0]; (split; [lia|]); intros; try discriminate. match goal with K : NWaiting _ _ _ _ = _ |- _ => injection K as <- <- <- <- end. lia. }
    destruct dt as (dt & D0 & DL).
    assert (A1 : nstep (i_net s) (NEvAdvance dt) = Some (nlater dt (i_net s), [])) by (cbn; destruct (Z.leb_spec 0 dt); [reflexivity|lia]).
    destruct (go_on _ _ _ _ _ _ _ _ L A1 Q) as (s1 & o1 & P1 & K1); [intros ? ? []|]. destruct K1 as [(_ & N1 & Q1)|((r & []) & _)].
    assert (PO : npossible (i_net s1) u).
    { rewrite N1. destruct p as [|h f dl ph|h f|r]; [exfalso; exact (NS _ E)| | |exfalso; exact (ND r eq_refl)].
      - eapply poss_wait; [exact N|exact E|reflexivity|]. exact (DL _ _ _ _ eq_refl).
      - eapply poss_cancel; [exact E|reflexivity]. }
    pose proof (iexec_one _ _ _ _ P1) as X1. pose proof (iexec_app _ _ _ _ _ _ _ X X1) as X01.
    assert (exists e n2 os, nown u e = true /\ nstep (i_net s1) e = Some (n2, os)) as (e & n2 & os & O & S2).
    { destruct PO as [PO|PO]; [destruct (nstep (i_net s1) (NEvTimer u)) as [[n2 os]|] eqn:Y; [|congruence]; exists (NEvTimer u), n2, os|
                            destruct (nstep (i_net s1) (NEvResume u)) as [[n2 os]|] eqn:Y; [|congruence]; exists (NEvResume u), n2, os];
      (split; [cbn; apply Nat.eqb_refl|exact Y]). }
    destruct (susp_net _ _ _ _ _ _ X01 Q1) as (L1 & _ & nes1 & p1 & h1 & M1 & E1 & ND1 & SG1).
    destruct (go_on _ _ _ _ _ _ _ _ L1 S2 Q1) as (s2 & o2 & P2 & K2).
    { intros u' r J. assert (U : e = NEvTimer u \/ e = NEvResume u) by (destruct e as [| | | |v|v|]; try discriminate O; cbn in O; apply Nat.eqb_eq in O; subst; auto).
      destruct U as [->| ->]; cbn in S2; rewrite E1 in S2; destruct p1 as [|h f dl ph|h f|r1]; try discriminate S2.
      - destruct ph; try discriminate S2. destruct (dl <=? n_now (i_net s1)); [|discriminate]. injection S2 as <- <-. destruct J.
      - unfold n_resume in S2. destruct (nth_error (w_futs (n_w (i_net s1))) f) as [[| |]|], ph; try discriminate S2; injection S2 as <- <-; ((destruct J as [J|[]]; injection J as <- <-; reflexivity) || destruct J).
      - injection S2 as <- <-. destruct J as [J|[]]. injection J as <- <-. reflexivity. }
    pose proof (iexec_one _ _ _ _ P2) as X2. pose proof (iexec_app _ _ _ _ _ _ _ X1 X2) as X12.
    assert (H12 : Forall (helps t tr) ([INet (NEvAdvance dt)] ++ [INet e])).
    { constructor; [exact I|]. constructor; [|constructor]. destruct e; try discriminate O; cbn in O; apply Nat.eqb_eq in O; subst; exact BY. }
    assert (S12 : silent ([INet (NEvAdvance dt)] ++ [INet e])) by (constructor; [exact I|]; constructor; [destruct e; try discriminate O; exact I|constructor]).
    destruct K2 as [(_ & N2 & Q2)|(_ & AD)].
    + pose proof (iexec_app _ _ _ _ _ _ _ X X12) as X012. destruct (IH _ s2 _ t u fs X012 Q2) as (es2 & s3 & tr3 & X3 & H3 & S3 & R3).
      * rewrite N2. intros h E2. pose proof (NodeLive.left_step _ _ _ _ u S2) as L2. rewrite O in L2. unfold NodeLive.left in L2. rewrite E2 in L2. cbn in L2. rewrite E1 in L2. destruct p1 as [|h' f dl []|h' f|r1]; cbn in L2; lia.
      * rewrite N2. pose proof (NodeLive.left_step _ _ _ _ u A1) as LA. rewrite <- N1 in LA. pose proof (NodeLive.left_step _ _ _ _ u S2) as L2. rewrite O in L2. lia.
      * exists (([INet (NEvAdvance dt)] ++ [INet e]) ++ es2), s3, ((istamp (n_now (i_net s)) o1 ++ istamp (n_now (i_net s1)) o2) ++ tr3). split; [exact (iexec_app _ _ _ _ _ _ _ X12 X3)|].
        split; [apply Forall_app; split; [apply all_more; exact H12|rewrite app_assoc; exact H3]|]. split; [apply Forall_app; auto|]. apply moved_more, R3.
    + eexists _, s2, _. split; [exact X12|]. split; [apply all_more; exact H12|]. split; [exact S12|]. apply advanced_moved, AD.
Qed.
(** however sending it ends *)
Lemma over net own es s tr t u fs : iexec s0 es s tr -> nth_error (i_tasks s) t = Some (ISusp (WReq u) fs) ->
  exists es2 s2 tr2, iexec s es2 s2 tr2 /\ Forall (helps t (tr ++ tr2)) es2 /\ outcome net own es2 /\ moved t fs s2 tr2.
Proof.
  intros X Q. destruct (susp_net _ _ _ _ _ _ X Q) as (L & BY & nes & p & h0 & N & E & ND & SG).
  assert (DEC : p = NSending \/ p <> NSending) by (destruct p; auto; right; discriminate). destruct DEC as [->|NS].
  - assert (exists n os, nstep (i_net s) (NEvSent u (net 0%nat)) = Some (n, os)) as (n & os & S1) by (cbn [nstep]; rewrite E; destruct (net 0%nat) as [[]|]; cbn; eauto).
    destruct (go_on _ _ _ _ _ _ _ _ L S1 Q) as (s1 & o1 & P1 & K1).
    { intros u' r J. cbn [nstep] in S1. rewrite E in S1. destruct (net 0%nat) as [[]|]; cbn in S1; injection S1 as <- <-; repeat (destruct J as [J|J]; [discriminate J || (injection J as <- <-; reflexivity)|]); destruct J. }
    pose proof (iexec_one _ _ _ _ P1) as X1. pose proof (iexec_app _ _ _ _ _ _ _ X X1) as X01.
    assert (H1 : Forall (helps t tr) [INet (NEvSent u (net 0%nat))]) by (constructor; [exact BY|constructor]).
    assert (O1 : outcome net own [INet (NEvSent u (net 0%nat))]) by (apply outcome_one; reflexivity).
    destruct K1 as [(_ & N1 & Q1)|(_ & AD)].
    + assert (NW : forall h, nth_error (n_tasks (i_net s1)) u <> Some (mkNT (NReq h 3000) NSending)).
      { assert (SET : forall p' s', n_tasks s' = n_tasks (i_net s) -> p' <> NSending -> forall h, nth_error (n_tasks (n_setpc u p' s')) u <> Some (mkNT (NReq h 3000) NSending)).
        { intros p' s' ES NP h Y. assert (E' : nth_error (n_tasks s') u = Some (mkNT (NReq h0 3000) NSending)) by (rewrite ES; exact E). rewrite (setpc_tasks _ _ _ _ E') in Y.
          rewrite (nth_upd_same _ _ _ _ E') in Y. injection Y as _ Y. exact (NP Y). }
        rewrite N1. cbn [nstep] in S1. rewrite E in S1. destruct (net 0%nat) as [[]|]; cbn [n_finish] in S1; injection S1 as <- <-.
        - unfold n_wait. destruct (add_session h0 (n_w (i_net s))) as [g wt]. cbn [Z.ltb]. change (0 <? 3000) with true. cbv iota. apply SET; [reflexivity|discriminate].
        - apply SET; [reflexivity|discriminate].
        - apply SET; [reflexivity|discriminate]. }
      destruct (over_waiting _ _ _ _ t u fs X01 Q1 NW (le_n _)) as (es2 & s2 & tr2 & X2 & H2 & S2 & R2).
      exists ([INet (NEvSent u (net 0%nat))] ++ es2), s2, (istamp (n_now (i_net s)) o1 ++ tr2). split; [exact (iexec_app _ _ _ _ _ _ _ X1 X2)|].
      split; [apply Forall_app; split; [apply all_more; exact H1|rewrite app_assoc; exact H2]|]. split; [apply outcome_app; [exact O1|apply silent_outcome; exact S2]|]. apply moved_more, R2.
    + eexists _, s1, _. split; [exact X1|]. split; [apply all_more; exact H1|]. split; [exact O1|]. change (istamp (n_now (i_net s)) o1) with ([] ++ istamp (n_now (i_net s)) o1). apply advanced_moved, AD.
  - assert (NW : forall h, nth_error (n_tasks (i_net s)) u <> Some (mkNT (NReq h 3000) NSending)) by (intros h; rewrite E; intros Y; injection Y as ? ->; exact (NS eq_refl)).
    destruct (over_waiting _ _ _ _ t u fs X Q NW (le_n _)) as (es2 & s2 & tr2 & X2 & H2 & S2 & R2).
    exists es2, s2, tr2. split; [exact X2|]. split; [exact H2|]. split; [apply silent_outcome; exact S2|exact R2].
Qed.
Definition goal (net : nat -> res bool) (own : nat -> res (option bool)) (s : istate) (tr : itrace) (t : nat) : Prop :=
  exists es2 s2 tr2 n r, iexec s es2 s2 tr2 /\ Forall (helps t (tr ++ tr2)) es2 /\ outcome net own es2 /\ In (n, ODone t r) tr2.
Lemma goal_after net own s tr t es1 s1 tr1 : iexec s es1 s1 tr1 -> Forall (helps t (tr ++ tr1)) es1 -> outcome net own es1 ->
  goal (fun i => net (length es1 + i)%nat) (fun i => own (length es1 + i)%nat) s1 (tr ++ tr1) t -> goal net own s tr t.
Proof.
  intros X H O (es2 & s2 & tr2 & n & r & X2 & H2 & O2 & J). exists (es1 ++ es2), s2, (tr1 ++ tr2), n, r. split; [exact (iexec_app _ _ _ _ _ _ _ X X2)|].
  rewrite app_assoc. split; [apply Forall_app; split; [apply all_more; exact H|exact H2]|]. split; [apply outcome_app; assumption|apply in_or_app; auto].
Qed.
Lemma ends_left k : forall net own es s tr t w fs, iexec s0 es s tr -> nth_error (i_tasks s) t = Some (ISusp w fs) -> (left 1 1 fs <= k)%nat -> goal net own s tr t.
Proof.
  induction k as [k IH] using lt_wf_ind. intros net own es s tr t w fs X Q LE.
  assert (NEXT : forall es1 s1 tr1, iexec s es1 s1 tr1 -> Forall (helps t (tr ++ tr1)) es1 -> outcome net own es1 -> moved t fs s1 tr1 -> goal net own s tr t).
  { intros es1 s1 tr1 X1 H1 O1 [(m & r & J)|(w' & fs' & Q' & LT)].
    - exists es1, s1, tr1, m, r. auto.
    - apply (goal_after net own s tr t es1 s1 tr1 X1 H1 O1). apply (IH (left 1 1 fs') ltac:(lia) _ _ _ _ _ _ w' fs' (iexec_app _ _ _ _ _ _ _ X X1) Q' (le_n _)). }
  destruct w as [u|].
  - destruct (over net own _ _ _ _ _ _ X Q) as (es1 & s1 & tr1 & X1 & H1 & O1 & M). exact (NEXT _ _ _ X1 H1 O1 M).
  - pose proof (linked_exec _ _ _ _ _ X) as L. pose proof (l_env _ _ L _ _ Q) as OT. destruct fs as [|[id|id|id|rest] fs]; try contradiction.
    assert (exists s1 o1, istep s (IOwn t (own 0%nat)) = Some (s1, o1)) as (s1 & o1 & P1) by (cbn [istep]; rewrite Q; destruct (settle t _) as [s1 o1]; eauto).
    apply (NEXT _ _ _ (iexec_one _ _ _ _ P1)); [constructor; [reflexivity|constructor]|apply outcome_one; reflexivity|].
    destruct (step_cases s tr _ s1 o1 L P1) as [(e' & n0 & osn & EE & _)|(n0 & osn & t0 & s' & hd & s2 & os2 & x & TN & C & S1 & OO)]; [discriminate|]. subst s1 o1.
    assert (t0 = t) as -> by (inversion TN; subst; try discriminate; congruence).
    change (moved t (FBody id :: fs) (mkI (i_net s2) (i_ids s) (i_cls s2) (put t (pc_of x) (i_tasks s))) ([] ++ istamp (n_now (i_net s)) (map ONet osn ++ hd ++ os2 ++ fin t x))). apply advanced_moved. eapply turn_advanced; [exact TN|exact Q|discriminate].
Qed.
Lemma open_pc es s tr t : iexec s0 es s tr -> iopen tr t -> exists w fs, nth_error (i_tasks s) t = Some (ISusp w fs).
Proof.
  intros X ((n & c & C) & ND). revert n c C ND. induction X as [|es s tr e s' os X IH ST]; intros n c C ND; [destruct C|]. pose proof (linked_exec _ _ _ _ _ X) as L.
  assert (ND0 : forall n r, ~ In (n, ODone t r) tr) by (intros m r J; apply (ND m r); apply in_or_app; auto).
  assert (NDO : forall r, ~ In (ODone t r) os) by (intros r J; apply (ND (n_now (i_net s)) r); apply in_or_app; right; apply in_istamp; auto).
  destruct (step_cases s tr e s' os L ST) as [(e' & n0 & osn & -> & ST' & -> & -> & NW)|(n0 & osn & t0 & s1 & hd & s2 & os2 & x & TN & CA & -> & ->)]; cbn [i_tasks netted].
  - apply in_app_or in C as [C|C]; [exact (IH _ _ C ND0)|]. apply in_istamp in C as [_ C]. apply in_map_iff in C as (? & ? & _). discriminate.
  - pose proof (turn_len _ _ _ _ _ _ _ _ TN) as TL. destruct (Nat.eq_dec t t0) as [<-|NE].
    + destruct x as [w fs|r]; [exists w, fs; apply at_put; exact TL|]. exfalso. apply (NDO r). do 3 (apply in_or_app; right). left. reflexivity.
    + assert (CT : In (n, OCall t c) tr).
      { apply in_app_or in C as [C|C]; [exact C|]. exfalso. apply in_istamp in C as [_ C]. apply in_app_or in C as [C|C]; [apply in_map_iff in C as (? & ? & _); discriminate|]. apply in_app_or in C as [C|C].
        - destruct TN as [e' n' osn' u r t' fs s1' hd' r1 -> SN R Q F SH|c0 ->|t' r id fs s1' hd' r1 -> Q F].
          + destruct (first_res fs r (netted s n')) as (s3 & hd0 & r0 & F0 & _ & _ & _ & F4). rewrite F in F0. injection F0 as <- <- <-. destruct F4 as [->|[id ->]]; [destruct C|destruct C as [C|[]]; discriminate].
          + destruct C as [C|[]]. congruence.
          + unfold body_end in F. destruct r as [rv|y]; [injection F as <- <- <-; destruct C as [C|[]]; discriminate|]. destruct y; injection F as <- <- <-; destruct C.
        - exact (InterviewVisit.calls_calm _ _ _ _ _ n n _ _ CA (proj2 (in_istamp n n _ _) (conj eq_refl C))). }
      destruct (IH _ _ CT ND0) as (w & fs & Q). exists w, fs. apply other_put; assumption.
Qed.
Lemma ends net own es s tr t : iexec s0 es s tr -> iopen tr t -> goal net own s tr t.
Proof. intros X O. destruct (open_pc _ _ _ _ X O) as (w & fs & Q). exact (ends_left _ net own _ _ _ _ w fs X Q (le_n _)). Qed.
End Run.

(** ** how many questions *)
Lemma head_does s e n osn t s1 hd g : turn s e n osn t s1 hd g -> forall o, In o hd -> (exists id, o = OUpdated id) \/ exists c, o = OCall t c /\ e = ICall c /\ t = length (i_tasks s).
Proof.
  intros [e' n' osn' u r t' fs s1' hd' r1 -> SN R Q F SH|c0 ->|t' r id fs s1' hd' r1 -> Q F] o C.
  - destruct (first_res fs r (netted s n')) as (s3 & hd0 & r0 & F0 & _ & _ & _ & F4). rewrite F in F0. injection F0 as <- <- <-. destruct F4 as [->|[id ->]]; [destruct C|destruct C as [<-|[]]; eauto].
  - destruct C as [<-|[]]. eauto 6.
  - unfold body_end in F. destruct r as [rv|y]; [injection F as <- <- <-; destruct C as [<-|[]]; eauto|]. destruct y; injection F as <- <- <-; destruct C.
Qed.
Lemma calm_does t s1 s2 os x : calm t s1 s2 os x -> forall o, In o (os ++ fin t x) -> (exists o', o = ONet o') \/ (exists id, o = OUpdated id) \/ (does t o /\ forall c, o <> OCall t c).
Proof.
  intros [_ _ _ _ C] o J. assert (B : forall os, Forall (benign t) os -> In o os -> (exists id, o = OUpdated id) \/ (does t o /\ forall c, o <> OCall t c)).
  { intros l FA IN. rewrite Forall_forall in FA. specialize (FA _ IN). destruct o; cbn in FA; try contradiction; subst; cbn; eauto; right; (split; [reflexivity|discriminate]). }
  apply in_app_or in J as [J|J].
  - destruct C as [(_ & FA & _)|(os0 & q & h & fs & -> & FA & _)]; [right; exact (B _ FA J)|]. apply in_app_or in J as [J|J]; [right; exact (B _ FA J)|].
    destruct J as [<-|[<-|[]]]; [right; right; cbn; split; [reflexivity|discriminate]|left; eauto].
  - destruct x; [destruct J|]. destruct J as [<-|[]]. right. right. cbn. split; [reflexivity|discriminate].
Qed.
(** everything a step shows is about the network or one task *)
Lemma turn_does s e n osn t s1 hd s2 os2 x : turn s e n osn t s1 hd (s2, os2, x) -> calm t s1 s2 os2 x -> forall o, In o (map ONet osn ++ hd ++ os2 ++ fin t x) -> forall t', does t' o -> t' = t.
Proof.
  intros TN C o J t' D. apply in_app_or in J as [J|J]; [apply in_map_iff in J as (o' & <- & _); destruct D|]. apply in_app_or in J as [J|J].
  - destruct (head_does _ _ _ _ _ _ _ _ TN _ J) as [[id ->]|(c & -> & _)]; [destruct D|exact (eq_sym D)].
  - destruct (calm_does _ _ _ _ _ C _ J) as [[o' ->]|[[id ->]|[D' _]]]; [destruct D|destruct D|]. destruct o; cbn in *; try contradiction; congruence.
Qed.
Lemma turn_calls s e n osn t s1 hd s2 os2 x : turn s e n osn t s1 hd (s2, os2, x) -> calm t s1 s2 os2 x -> forall t' c, In (OCall t' c) (map ONet osn ++ hd ++ os2 ++ fin t x) -> t' = t /\ e = ICall c /\ t = length (i_tasks s).
Proof.
  intros TN C t' c J. pose proof (turn_does _ _ _ _ _ _ _ _ _ _ TN C _ J t' eq_refl) as ->. split; [reflexivity|]. apply in_app_or in J as [J|J]; [apply in_map_iff in J as (o' & E & _); discriminate E|]. apply in_app_or in J as [J|J].
  - destruct (head_does _ _ _ _ _ _ _ _ TN _ J) as [[id E]|(c' & E & A & B)]; [discriminate E|]. injection E as <-. auto.
  - destruct (calm_does _ _ _ _ _ C _ J) as [[o' E]|[[id E]|[_ D']]]; [discriminate E..|]. destruct (D' c eq_refl).
Qed.
Lemma ids_exec ids cls es s tr : iexec (istate0 ids cls) es s tr -> i_ids s = ids.
Proof.
  induction 1 as [|es s tr e s' os X IH ST]; [reflexivity|]. destruct (step_cases s tr e s' os (linked_exec _ _ _ _ _ X) ST) as [(e' & n0 & osn & -> & ST' & -> & -> & NW)|(n0 & osn & t0 & s1 & hd & s2 & os2 & x & TN & CA & -> & ->)]; exact IH.
Qed.
Section Count.
Variables wq wo : nat.
Definition price_of (t : nat) (o : iobs) : nat := match o with OAsk t' _ _ => if Nat.eqb t' t then wq else 0 | OOwn t' _ => if Nat.eqb t' t then wo else 0 | _ => 0 end.
Definition spent (t : nat) (tr : itrace) : nat := list_sum (map (fun x => price_of t (snd x)) tr).
Lemma spent_app t a b : spent t (a ++ b) = (spent t a + spent t b)%nat. Proof. unfold spent. rewrite map_app, list_sum_app. reflexivity. Qed.
Lemma spent_stamp t T os : spent t (istamp T os) = list_sum (map (price_of t) os). Proof. unfold spent, istamp. rewrite map_map. reflexivity. Qed.
Lemma price_total t os : (forall o, In o os -> forall t', does t' o -> t' = t) -> list_sum (map (price_of t) os) = total wq wo os.
Proof.
  unfold total. induction os as [|o os IH]; intros H; [reflexivity|]. change (price_of t o + list_sum (map (price_of t) os) = price wq wo o + list_sum (map (price wq wo) os))%nat.
  rewrite IH by (intros; eapply H; [right; eassumption|eassumption]). f_equal. assert (K : forall t', does t' o -> t' = t) by (apply H; left; reflexivity).
  destruct o; cbn in *; try reflexivity; rewrite (K _ eq_refl), Nat.eqb_refl; reflexivity.
Qed.
Lemma price_other t os : (forall o, In o os -> ~ does t o) -> list_sum (map (price_of t) os) = 0%nat.
Proof.
  induction os as [|o os IH]; intros H; [reflexivity|]. change (price_of t o + list_sum (map (price_of t) os) = 0)%nat. rewrite IH by (intros; apply H; right; assumption).
  assert (K : ~ does t o) by (apply H; left; reflexivity). destruct o as [| | |t' u q|t' id| |]; cbn in *; try reflexivity; destruct (Nat.eqb_spec t' t); [contradiction|reflexivity|contradiction|reflexivity].
Qed.
Definition pc_left (p : ipc) : nat := match p with ISusp _ fs => left wq wo fs | IEnd _ => 0 end.
Record few_inv (ids : list Z) (s : istate) (tr : itrace) : Prop := mkFew {
  f_task : forall t p, nth_error (i_tasks s) t = Some p -> exists n c, In (n, OCall t c) tr /\ (spent t tr + pc_left p <= call_price wq wo ids c)%nat;
  f_new : forall t, (length (i_tasks s) <= t)%nat -> forall n o, In (n, o) tr -> ~ does t o;
  f_call : forall n n' t c c', In (n, OCall t c) tr -> In (n', OCall t c') tr -> n = n' /\ c = c' }.
Lemma put_len t p (ts : list ipc) : (t <= length ts)%nat -> (length ts <= length (put t p ts))%nat /\ (t < length (put t p ts))%nat.
Proof.
  intros L. pose proof (at_put t p ts L) as A. apply nth_lt in A. split; [|exact A]. unfold put. destruct (Nat.ltb_spec t (length ts)); [|rewrite app_length; lia].
  clear. revert t. induction ts as [|a ts IH]; intros [|t]; cbn; auto. specialize (IH t). lia.
Qed.
Lemma spent_new ids s tr t : few_inv ids s tr -> (length (i_tasks s) <= t)%nat -> spent t tr = 0%nat.
Proof.
  intros I L. assert (K : forall n o, In (n, o) tr -> ~ does t o) by (apply (f_new _ _ _ I); exact L). clear -K. unfold spent. rewrite <- (map_map snd). apply price_other. intros o J. apply in_map_iff in J as ([n o'] & <- & J). exact (K _ _ J).
Qed.
Lemma few_exec ids cls es s tr : iexec (istate0 ids cls) es s tr -> few_inv ids s tr.
Proof.
  induction 1 as [|es s tr e s' os X I ST]; [constructor; cbn; try contradiction; intros [|?]; discriminate|].
  pose proof (ids_exec _ _ _ _ _ X) as IDS. set (T := n_now (i_net s)).
  destruct (step_cases s tr e s' os (linked_exec _ _ _ _ _ X) ST) as [(e' & n0 & osn & -> & ST' & -> & -> & NW)|(n0 & osn & t0 & s1 & hd & s2 & os2 & x & TN & CA & -> & ->)].
  - assert (NI : forall o n1, In (n1, o) (istamp T (map ONet osn)) -> exists o', o = ONet o') by (intros o n1 J; apply in_istamp in J as [_ J]; apply in_map_iff in J as (o' & <- & _); eauto).
    constructor; cbn [i_tasks netted].
    + intros t p Q. destruct (f_task _ _ _ I t p Q) as (n & c & A & B). exists n, c. split; [apply in_or_app; auto|]. rewrite spent_app, spent_stamp, price_other; [lia|]. intros o J. apply in_map_iff in J as (o' & <- & _). intros [].
    + intros t Q n o J. apply in_app_or in J as [J|J]; [exact (f_new _ _ _ I t Q _ _ J)|]. destruct (NI _ _ J) as [o' ->]. intros [].
    + intros n n' t c c' J J'. apply in_app_or in J as [J|J]; [|destruct (NI _ _ J); discriminate]. apply in_app_or in J' as [J'|J']; [|destruct (NI _ _ J'); discriminate]. exact (f_call _ _ _ I _ _ _ _ _ J J').
  - pose proof (turn_len _ _ _ _ _ _ _ _ TN) as TL. pose proof (turn_does _ _ _ _ _ _ _ _ _ _ TN CA) as DO. pose proof (turn_calls _ _ _ _ _ _ _ _ _ _ TN CA) as CALLS.
    destruct (within_turn wq wo _ _ _ _ _ _ _ _ TN) as [W HD]. constructor; cbn [i_tasks].
    + intros t p Q. destruct (put_at _ _ _ _ _ Q TL) as [[-> ->]|[N Y]].
      * assert (COST : spent t0 (istamp T (map ONet osn ++ hd ++ os2 ++ fin t0 x)) = total wq wo os2).
        { rewrite spent_stamp, price_total by exact DO. rewrite !total_app, total_nets, HD. assert (F : total wq wo (fin t0 x) = 0%nat) by (destruct x; reflexivity). lia. }
        assert (LX : pc_left (pc_of x) = out_left wq wo x) by (destruct x; reflexivity). destruct W as [W _].
        destruct e as [e'|c|t' r].
        -- assert (P : exists w fs, nth_error (i_tasks s) t0 = Some (ISusp w fs)) by (inversion TN; subst; try discriminate; eauto). destruct P as (w & fs & P). rewrite P in W.
           destruct (f_task _ _ _ I _ _ P) as (n & c & A & B). exists n, c. split; [apply in_or_app; auto|]. rewrite spent_app, COST, LX. cbn [pc_left] in B. lia.
        -- assert (P : t0 = length (i_tasks s) /\ In (OCall t0 c) hd) by (inversion TN; subst; try discriminate; match goal with K : ICall _ = ICall _ |- _ => injection K as <- end; split; [reflexivity|left; reflexivity]). destruct P as [P IH].
           exists T, c. split; [apply in_or_app; right; apply in_istamp; split; [reflexivity|]; apply in_or_app; right; apply in_or_app; auto|]. rewrite spent_app, COST, LX, (spent_new _ _ _ _ I) by lia. rewrite IDS in W. lia.
        -- assert (P : exists w fs, nth_error (i_tasks s) t0 = Some (ISusp w fs)) by (inversion TN; subst; try discriminate; eauto). destruct P as (w & fs & P). rewrite P in W.
           destruct (f_task _ _ _ I _ _ P) as (n & c & A & B). exists n, c. split; [apply in_or_app; auto|]. rewrite spent_app, COST, LX. cbn [pc_left] in B. lia.
      * destruct (f_task _ _ _ I _ _ Y) as (n & c & A & B). exists n, c. split; [apply in_or_app; auto|]. rewrite spent_app, spent_stamp, price_other; [lia|]. intros o J D. exact (N (DO _ J _ D)).
    + intros t Q n o J D. destruct (put_len t0 (pc_of x) (i_tasks s) TL) as [PL1 PL2]. apply in_app_or in J as [J|J]; [exact (f_new _ _ _ I t ltac:(lia) _ _ J D)|]. apply in_istamp in J as [_ J]. pose proof (DO _ J _ D). lia.
    + intros n n' t c c' J J'. apply in_app_or in J as [J|J]; apply in_app_or in J' as [J'|J'].
      * exact (f_call _ _ _ I _ _ _ _ _ J J').
      * apply in_istamp in J' as [_ J']. destruct (CALLS _ _ J') as (-> & _ & E). destruct (f_new _ _ _ I t0 ltac:(lia) _ _ J eq_refl).
      * apply in_istamp in J as [_ J]. destruct (CALLS _ _ J) as (-> & _ & E). destruct (f_new _ _ _ I t0 ltac:(lia) _ _ J' eq_refl).
      * apply in_istamp in J as [-> J]. apply in_istamp in J' as [-> J']. destruct (CALLS _ _ J) as (_ & E & _). destruct (CALLS _ _ J') as (_ & E' & _). split; congruence.
Qed.
Lemma called_task ids s tr n t c : few_inv ids s tr -> In (n, OCall t c) tr -> exists p, nth_error (i_tasks s) t = Some p.
Proof.
  intros I J. destruct (nth_error (i_tasks s) t) as [p|] eqn:Q; [eauto|]. apply nth_error_None in Q. destruct (f_new _ _ _ I t Q _ _ J eq_refl).
Qed.
Lemma spent_le ids cls es s tr n t c : iexec (istate0 ids cls) es s tr -> In (n, OCall t c) tr -> (spent t tr <= call_price wq wo ids c)%nat.
Proof.
  intros X J. pose proof (few_exec _ _ _ _ _ X) as I. destruct (called_task _ _ _ _ _ _ I J) as (p & Q). destruct (f_task _ _ _ I _ _ Q) as (n' & c' & A & B). destruct (f_call _ _ _ I _ _ _ _ _ J A) as [_ <-]. lia.
Qed.
End Count.
Lemma spent_asked t tr : spent 1 0 t tr = length (asked t tr).
Proof. induction tr as [|[n o] tr IH]; [reflexivity|]. change (price_of 1 0 t o + spent 1 0 t tr = length (asked t ((n, o) :: tr)))%nat. rewrite IH. destruct o as [| | |t' u q|t' id| |]; cbn; try reflexivity; destruct (Nat.eqb t' t); reflexivity. Qed.
Lemma spent_begun t tr : spent 0 1 t tr = length (begun t tr).
Proof. induction tr as [|[n o] tr IH]; [reflexivity|]. change (price_of 0 1 t o + spent 0 1 t tr = length (begun t ((n, o) :: tr)))%nat. rewrite IH. destruct o as [| | |t' u q|t' id| |]; cbn; try reflexivity; destruct (Nat.eqb t' t); reflexivity. Qed.
Lemma own_price_is wq wo id : own_price wq wo id = match own_of id with Asks _ => wq | Itself => wo | Nothing => 0%nat end.
Proof.
  unfold own_price, body_of, own_of. destruct (id =? 134); [reflexivity|]. destruct (id =? 94); [reflexivity|]. destruct (id =? 114); [reflexivity|]. cbn [existsb]. destruct (id =? 133), (id =? 89), (id =? 49); reflexivity.
Qed.
Lemma price_questions ids : prices 1 0 ids = questions ids.
Proof.
  unfold questions. induction ids as [|id ids IH]; [reflexivity|]. change (prices 1 0 (id :: ids)) with (1 + own_price 1 0 id + prices 1 0 ids)%nat. rewrite IH, own_price_is. cbn [length filter]. destruct (own_of id); cbn [length]; lia.
Qed.
Lemma price_others ids : prices 0 1 ids = others ids.
Proof.
  unfold others. induction ids as [|id ids IH]; [reflexivity|]. change (prices 0 1 (id :: ids)) with (0 + own_price 0 1 id + prices 0 1 ids)%nat. rewrite IH, own_price_is. cbn [length filter]. destruct (own_of id); cbn [length]; lia.
Qed.
Lemma few ids cls es s tr n t c : iexec (istate0 ids cls) es s tr -> In (n, OCall t c) tr -> (length (asked t tr) <= due_questions ids c)%nat /\ (length (begun t tr) <= due_others ids c)%nat.
Proof.
  intros X J. rewrite <- spent_asked, <- spent_begun. pose proof (spent_le 1 0 _ _ _ _ _ _ _ _ X J) as A. pose proof (spent_le 0 1 _ _ _ _ _ _ _ _ X J) as B.
  destruct c as [|id|id]; cbn [call_price due_questions due_others] in *; [rewrite price_questions in A; rewrite price_others in B; auto| |auto].
  rewrite <- price_questions, <- price_others. unfold prices. cbn [map list_sum fold_right]. lia.
Qed.

(** ** timely runs *)
(** a task that waits for another interview began it last *)
Definition last_begun (t : nat) (g : igo) : Prop := match g with (_, os, XWait WEnv _) => exists os0 id, os = os0 ++ [OOwn t id] | _ => True end.
Lemma last_note t os g : last_begun t g -> last_begun t (inote os g).
Proof. destruct g as [[s os'] [[u|] fs|r]]; cbn; auto. intros (os0 & id & ->). exists (os ++ os0), id. apply app_assoc. Qed.
Lemma last_under t f g : last_begun t g -> last_begun t (iunder f g).
Proof. destruct g as [[s os'] [[u|] fs|r]]; cbn; auto. Qed.
Lemma last_request t q h s : last_begun t (irequest t q h s).
Proof. unfold irequest. cbn [nstep]. destruct (add_session h (n_w (i_net s))). exact I. Qed.
Lemma last_ask t id s : last_begun t (ask_version t id s).
Proof. unfold ask_version. destruct (id =? 0); [exact I|]. rewrite version_new. apply last_under, last_request. Qed.
Lemma last_start_body t id v s : last_begun t (start_body t id v s).
Proof.
  unfold start_body. destruct (v =? 0); [exact I|]. cbv zeta. destruct (body_of id) as [g r a| |] eqn:E; [|exact I|exists [], id; reflexivity]. rewrite (own_new _ _ _ _ E). apply last_under, last_request.
Qed.
Lemma last_start_class t id s : last_begun t (start_class t id s).
Proof.
  unfold start_class. apply last_note. cbv zeta. destruct (k_version (i_cls s id) =? 0); [|apply last_start_body]. pose proof (last_ask t id s) as A. destruct (ask_version t id s) as [[s1 os1] x].
  destruct x as [w fs|[[v|r|]|e]]; try (exact (last_under t (FWrap id) _ A)). apply last_note, last_start_body.
Qed.
Lemma last_visit t rest : forall s, last_begun t (visit t rest s).
Proof.
  induction rest as [|id rest IH]; intros s; [exact I|]. cbn [visit]. pose proof (last_start_class t id s) as A. destruct (start_class t id s) as [[s1 os1] x].
  destruct x as [w fs|[v|e]]; [exact (last_under t (FNode rest) _ A)|apply last_note, IH|]. destruct e; try exact I. apply last_note, IH.
Qed.
Lemma last_after t f r s : last_begun t (after_frame t f r s).
Proof. destruct f, r as [[]|[]]; cbn [after_frame]; try exact I; first [apply last_start_body|apply last_visit]. Qed.
Lemma last_unwind t fs : forall r s, last_begun t (unwind t fs r s).
Proof.
  induction fs as [|f fs IH]; intros r s; [exact I|]. cbn [unwind]. pose proof (last_after t f r s) as A. destruct (after_frame t f r s) as [[s1 os1] [w g|r']]; [|apply last_note, IH].
  destruct w; exact A.
Qed.
Lemma last_turn s e n osn t s1 hd g : turn s e n osn t s1 hd g -> last_begun t g.
Proof. intros [e' n' osn' u r t' fs s1' hd' r1 -> ST R Q F SH|c ->|t' r id fs s1' hd' r1 -> Q F]; [apply last_unwind|destruct c; [apply last_visit|apply last_start_class|apply last_ask]|apply last_unwind]. Qed.

Lemma timely_is D E s0 es s tr : timely D E s0 es s tr -> iexec s0 es s tr.
Proof. induction 1; econstructor; eassumption. Qed.
Lemma calm_now t s1 s2 os x : calm t s1 s2 os x -> n_now (i_net s2) = n_now (i_net s1).
Proof. intros [_ _ _ _ [(-> & _)|(os0 & q & h & fs & _ & _ & SN & _)]]; [reflexivity|]. destruct (step_tasks _ _ _ _ SN) as (_ & _ & _ & _ & _ & _ & _ & _ & B). exact B. Qed.
Section Steps.
Variable ids : list Z.
Variable cls0 : Z -> kcls.
Notation s0 := (istate0 ids cls0).
Lemma step_now es s tr e s' os : iexec s0 es s tr -> istep s e = Some (s', os) -> n_now (i_net s) <= n_now (i_net s') /\ ((forall dt, e <> INet (NEvAdvance dt)) -> n_now (i_net s') = n_now (i_net s)) /\
  forall dt, e = INet (NEvAdvance dt) -> 0 <= dt /\ n_now (i_net s') = n_now (i_net s) + dt /\ os = [] /\ i_tasks s' = i_tasks s.
Proof.
  intros X ST. destruct (step_cases s tr e s' os (linked_exec _ _ _ _ _ X) ST) as [(e' & n & osn & -> & SN & -> & -> & NW)|(n & osn & t & s1 & hd & s2 & os2 & x & TN & CA & -> & ->)]; cbn [i_net i_tasks netted].
  - destruct (step_tasks _ _ _ _ SN) as (_ & _ & _ & _ & _ & _ & _ & A & B). split; [exact A|]. split.
    + intros ND. destruct e' as [dt| | | | | |]; try exact B. destruct (ND dt eq_refl).
    + intros dt E. injection E as ->. cbn in SN. destruct (Z.leb_spec 0 dt); [|discriminate]. injection SN as <- <-. auto.
  - destruct (turn_net _ _ _ _ _ _ _ _ TN) as (N1 & _ & NN & NS). pose proof (calm_now _ _ _ _ _ CA) as N2. rewrite N1, NN in N2. rewrite N2. split; [lia|]. split; [auto|].
    intros dt ->. exfalso. destruct NS as [(-> & ->)|(e'' & u1 & r1 & fs1 & E & ST' & _ & R1 & _)]; [inversion TN; subst; discriminate|]. injection E as <-. cbn in ST'. destruct (0 <=? dt); [|discriminate]. injection ST' as <- <-. discriminate R1.
Qed.
Lemma nets_turn s e n osn t s1 hd s2 os2 x T : turn s e n osn t s1 hd (s2, os2, x) -> calm t s1 s2 os2 x -> nets (istamp T (map ONet osn ++ hd ++ os2 ++ fin t x)) = nstamp T osn ++ nets (istamp T os2).
Proof.
  intros TN CA. destruct (turn_net _ _ _ _ _ _ _ _ TN) as (_ & PL & _). rewrite !stamp_app, !nets_app, nets_map, (nets_plain T hd PL), (nets_plain T (fin t x) (fin_plain t x)), app_nil_r. reflexivity.
Qed.
Lemma timely_net D E es s tr : timely D E s0 es s tr -> exists nes, nprompt nstate0 nes (i_net s) (nets tr).
Proof.
  induction 1 as [|es s tr e s' os X [nes IH] ST TM]; [exists []; constructor|]. pose proof (timely_is _ _ _ _ _ _ X) as X0.
  destruct (step_cases s tr e s' os (linked_exec _ _ _ _ _ X0) ST) as [(e' & n & osn & -> & SN & -> & -> & NW)|(n & osn & t & s1 & hd & s2 & os2 & x & TN & CA & -> & ->)]; cbn [i_net netted].
  - exists (nes ++ [e']). rewrite nets_app, nets_map. apply NR_snoc; [exact IH|exact SN|]. intros dt d u -> R. exact (proj1 (TM dt eq_refl) d u R).
  - destruct (turn_net _ _ _ _ _ _ _ _ TN) as (N1 & PL & NN & NS).
    assert (X1 : exists es, nprompt nstate0 es n (nets tr ++ nstamp (n_now (i_net s)) osn)).
    { destruct NS as [(-> & ->)|(e' & u & r & fs & -> & SN & _)]; [exists nes; cbn; rewrite app_nil_r; exact IH|]. exists (nes ++ [e']). apply NR_snoc; [exact IH|exact SN|]. intros dt d u' -> R. exact (proj1 (TM dt eq_refl) d u' R). }
    destruct X1 as [es1 X1]. rewrite nets_app, (nets_turn _ _ _ _ _ _ _ _ _ _ _ TN CA), app_assoc. destruct CA as [_ _ _ _ [(E1 & FA & _)|(os0 & q & h & fs & -> & FA & SN & _)]].
    + exists es1. rewrite E1, N1, nets_plain by (eapply forall_plain; exact FA). rewrite app_nil_r. exact X1.
    + rewrite N1 in SN. exists (es1 ++ [NEvCall (NReq h 3000)]). rewrite stamp_app, nets_app, (nets_plain _ os0) by (eapply forall_plain; exact FA). cbn [app].
      assert (Y : nprompt nstate0 (es1 ++ [NEvCall (NReq h 3000)]) (i_net s2) ((nets tr ++ nstamp (n_now (i_net s)) osn) ++ nstamp (n_now n) [NCall (next s1) (NReq h 3000)])) by (apply NR_snoc; [exact X1|exact SN|intros; discriminate]).
      rewrite NN in Y. exact Y.
Qed.
Lemma in_past es s tr n o : iexec s0 es s tr -> In (n, o) tr -> n <= n_now (i_net s).
Proof.
  induction 1 as [|es s tr e s' os X IH ST]; intros J; [destruct J|]. destruct (step_now _ _ _ _ _ _ X ST) as [A _]. apply in_app_or in J as [J|J]; [specialize (IH J); lia|]. apply in_istamp in J as [-> _]. exact A.
Qed.
Lemma step_asks es s tr e s' os t u q : iexec s0 es s tr -> istep s e = Some (s', os) -> In (OAsk t u q) os -> (forall dt, e <> INet (NEvAdvance dt)) /\ exists h, In (ONet (NCall u (NReq h 3000))) os.
Proof.
  intros X ST J. split; [intros dt ->; destruct (step_now _ _ _ _ _ _ X ST) as (_ & _ & A); destruct (A dt eq_refl) as (_ & _ & -> & _); destruct J|].
  destruct (step_cases s tr e s' os (linked_exec _ _ _ _ _ X) ST) as [(e' & n & osn & -> & SN & -> & -> & NW)|(n & osn & t0 & s1 & hd & s2 & os2 & x & TN & CA & -> & ->)].
  - apply in_map_iff in J as (? & ? & _). discriminate.
  - apply in_app_or in J as [J|J]; [apply in_map_iff in J as (? & ? & _); discriminate|]. apply in_app_or in J as [J|J]; [destruct (head_does _ _ _ _ _ _ _ _ TN _ J) as [[id E]|(c & E & _)]; discriminate E|].
    apply in_app_or in J as [J|J]; [|destruct x; [destruct J|destruct J as [J|[]]; discriminate J]]. destruct CA as [_ _ _ _ [(E1 & FA & _)|(os0 & q' & h & fs & -> & FA & SN & _)]].
    + rewrite Forall_forall in FA. destruct (FA _ J).
    + apply in_app_or in J as [J|J]; [rewrite Forall_forall in FA; destruct (FA _ J)|]. destruct J as [J|[J|[]]]; [|discriminate J]. injection J as <- <- <-. exists h. do 2 (apply in_or_app; right). apply in_or_app. left. apply in_or_app. right. right. left. reflexivity.
Qed.
Lemma step_sent es s tr e s' os u r : iexec s0 es s tr -> istep s e = Some (s', os) -> In (ONet (NSent u r)) os -> e = INet (NEvSent u r).
Proof.
  intros X ST J. destruct (step_cases s tr e s' os (linked_exec _ _ _ _ _ X) ST) as [(e' & n & osn & -> & SN & -> & -> & NW)|(n & osn & t0 & s1 & hd & s2 & os2 & x & TN & CA & -> & ->)].
  - apply in_map_iff in J as (o & E & J). injection E as ->. destruct (step_tasks _ _ _ _ SN) as (_ & _ & _ & _ & _ & OS & _). apply OS in J as ->. reflexivity.
  - destruct (turn_net _ _ _ _ _ _ _ _ TN) as (_ & _ & _ & NS). apply in_app_or in J as [J|J].
    + apply in_map_iff in J as (o & E & J). injection E as ->. destruct NS as [(_ & ->)|(e' & u' & r' & w & -> & SN & _)]; [destruct J|]. destruct (step_tasks _ _ _ _ SN) as (_ & _ & _ & _ & _ & OS & _). apply OS in J as ->. reflexivity.
    + apply in_app_or in J as [J|J]; [destruct (head_does _ _ _ _ _ _ _ _ TN _ J) as [[id E]|(c & E & _)]; discriminate E|].
      apply in_app_or in J as [J|J]; [|destruct x; [destruct J|destruct J as [J|[]]; discriminate J]]. destruct CA as [_ _ _ _ [(E1 & FA & _)|(os0 & q' & h & fs & -> & FA & SN & _)]].
      * rewrite Forall_forall in FA. destruct (FA _ J).
      * apply in_app_or in J as [J|J]; [rewrite Forall_forall in FA; destruct (FA _ J)|]. destruct J as [J|[J|[]]]; discriminate J.
Qed.
Lemma ask_call es s tr n t u q : iexec s0 es s tr -> In (n, OAsk t u q) tr -> exists m h, In (m, NCall u (NReq h 3000)) (nets tr).
Proof.
  induction 1 as [|es s tr e s' os X IH ST]; intros J; [destruct J|]. apply in_app_or in J as [J|J].
  - destruct (IH J) as (m & h & K). exists m, h. rewrite nets_app. apply in_or_app. auto.
  - apply in_istamp in J as [_ J]. destruct (step_asks _ _ _ _ _ _ _ _ _ X ST J) as (_ & h & K). exists (n_now (i_net s)), h. apply in_nets. apply in_or_app. right. apply in_istamp. auto.
Qed.
Section Timely.
Variables D E : Z.
Hypothesis D0 : 0 <= D.
Hypothesis E0 : 0 <= E.
(** sending a question takes no longer than [D] *)
Lemma sending_time es s tr : timely D E s0 es s tr -> forall T t u q, In (T, OAsk t u q) tr ->
  (forall m r, In (m, ONet (NSent u r)) tr -> m <= T + D) /\ ((forall m r, ~ In (m, ONet (NSent u r)) tr) -> (forall m r, ~ In (m, ONet (NRet u r)) tr) -> n_now (i_net s) <= T + D).
Proof.
  induction 1 as [|es s tr e s' os PX IH ST TM]; intros T t u q J; [destruct J|]. pose proof (timely_is _ _ _ _ _ _ PX) as X. destruct (step_now _ _ _ _ _ _ X ST) as (NL & NE & NA).
  apply in_app_or in J as [J|J].
  - destruct (IH _ _ _ _ J) as [A B]. split.
    + intros m r K. apply in_app_or in K as [K|K]; [eauto|]. apply in_istamp in K as [-> K]. apply (step_sent _ _ _ _ _ _ _ _ X ST) in K. subst e.
      pose proof (linked_exec _ _ _ _ _ X) as L. destruct (l_net _ _ L) as [nes N].
      assert (exists x, nth_error (n_tasks (i_net s)) u = Some x /\ n_pc x = NSending) as (x & Q & P).
      { cbn [istep] in ST. destruct (nstep (i_net s) (NEvSent u r)) as [[n o]|] eqn:Y; [|discriminate]. cbn [nstep] in Y. destruct (nth_error (n_tasks (i_net s)) u) as [[c p]|]; [|discriminate]. exists (mkNT c p). split; [reflexivity|]. destruct c, p; try discriminate Y; reflexivity. }
      pose proof (NodeLive.stage_exec _ _ _ N _ _ Q) as SG. rewrite P in SG. destruct SG as (_ & S1 & S2). apply B; intros m r'; rewrite <- in_nets; auto.
    + intros NS NR. assert (NS' : forall m r, ~ In (m, ONet (NSent u r)) tr) by (intros m r K; apply (NS m r); apply in_or_app; auto). assert (NR' : forall m r, ~ In (m, ONet (NRet u r)) tr) by (intros m r K; apply (NR m r); apply in_or_app; auto).
      specialize (B NS' NR'). destruct e as [e'|x|t' r]; [|rewrite NE by discriminate; exact B..]. destruct e' as [dt| | | | | |]; try (rewrite NE by discriminate; exact B).
      destruct (NA dt eq_refl) as (_ & -> & _). destruct (TM dt eq_refl) as (_ & K & _). exact (K _ _ _ _ J NS' NR').
  - apply in_istamp in J as [-> J]. destruct (step_asks _ _ _ _ _ _ _ _ _ X ST J) as [ND _]. rewrite (NE ND). split; [|lia]. intros m r K.
    pose proof (in_past _ _ _ _ _ (IX_snoc _ _ _ _ _ _ _ X ST) K) as P. rewrite (NE ND) in P. lia.
Qed.
(** a question is over three seconds after it was sent *)
Lemma asking_time es s tr : timely D E s0 es s tr -> forall T t u q, In (T, OAsk t u q) tr -> (forall m r, ~ In (m, ONet (NRet u r)) tr) -> n_now (i_net s) <= T + (D + 3000).
Proof.
  intros PX T t u q J NR. pose proof (timely_is _ _ _ _ _ _ PX) as X. destruct (sending_time _ _ _ PX _ _ _ _ J) as [A B]. destruct (timely_net _ _ _ _ _ PX) as [nes N]. pose proof (NodeLive.prompt_is _ _ _ N) as N1.
  destruct (ask_call _ _ _ _ _ _ _ X J) as (m & h & C). destruct (call_task _ _ _ N1 _ _ _ C) as (x & Q & CX). pose proof (NodeLive.stage_exec _ _ _ N1 _ _ Q) as SG. rewrite CX in SG.
  assert (W : forall T', In (T', NSent u (Ok true)) (nets tr) -> n_now (i_net s) <= T + (D + 3000)).
  { intros T' W. destruct (NodeLive.in_time _ _ _ _ _ _ T' N C W) as [_ K]. specialize (A _ _ (proj1 (in_nets _ _ _) W)). cbn in K. assert (n_now (i_net s) <= T' + 3000); [|lia]. apply K. intros m' r'. rewrite in_nets. apply NR. }
  destruct (n_pc x) as [|h' f dl ph|h' f|r]; cbn in SG.
  - destruct SG as (_ & S1 & S2). assert (n_now (i_net s) <= T + D); [|lia]. apply B; intros m' r'; rewrite <- in_nets; auto.
  - destruct SG as ((T' & W' & _) & _). exact (W _ W').
  - destruct SG as ((T' & W') & _). exact (W _ W').
  - destruct SG as (m' & K). apply in_nets in K. destruct (NR _ _ K).
Qed.
(** so do the other interviews *)
Definition quiet (t : nat) (b : itrace) : Prop := forall m o, In (m, o) b -> ~ does t o.
Lemma own_time es s tr : timely D E s0 es s tr -> forall a T t id b, tr = a ++ (T, OOwn t id) :: b -> quiet t b -> n_now (i_net s) <= T + E.
Proof.
  induction 1 as [|es s tr e s' os PX IH ST TM]; intros a T t id b Q QT; [destruct a; discriminate|]. pose proof (timely_is _ _ _ _ _ _ PX) as X. destruct (step_now _ _ _ _ _ _ X ST) as (NL & NE & NA).
  destruct (InterviewVisit.split_two _ _ _ _ _ Q) as [(c & ->)|(c & -> & Q2)].
  - rewrite <- app_assoc in Q. apply app_inv_head in Q. injection Q as Q. assert (QC : quiet t c) by (intros m o J; apply (QT m o); rewrite <- Q; apply in_or_app; auto).
    specialize (IH a T t id c eq_refl QC). destruct e as [e'|x|t' r]; [|rewrite NE by discriminate; exact IH..]. destruct e' as [dt| | | | | |]; try (rewrite NE by discriminate; exact IH).
    destruct (NA dt eq_refl) as (_ & -> & _). destruct (TM dt eq_refl) as (_ & _ & K). exact (K _ _ _ _ _ eq_refl QC).
  - assert (J : In (T, OOwn t id) (istamp (n_now (i_net s)) os)) by (rewrite Q2; apply in_or_app; right; left; reflexivity). apply in_istamp in J as [-> J].
    rewrite NE; [lia|]. intros dt ->. destruct (NA dt eq_refl) as (_ & _ & -> & _). destruct J.
Qed.
(** when task [t], called at [n], is where it is *)
Definition timing (n : Z) (tr : itrace) (t : nat) (p : ipc) : Prop :=
  (forall m r, In (m, ODone t r) tr -> m <= n + allowed D E t tr) /\
  match p with
  | ISusp (WReq u) _ => exists T q, In (T, OAsk t u q) tr /\ T + (D + 3000) <= n + allowed D E t tr
  | ISusp WEnv _ => exists a T id b, tr = a ++ (T, OOwn t id) :: b /\ quiet t b /\ T + E <= n + allowed D E t tr
  | IEnd r => exists m, In (m, ODone t r) tr
  end.
Lemma allowed_app t a b : allowed D E t (a ++ b) = allowed D E t a + allowed D E t b.
Proof. unfold allowed, asked, begun. rewrite !flat_map_app, !app_length. lia. Qed.
Lemma allowed_pos t a : 0 <= allowed D E t a. Proof. unfold allowed. nia. Qed.
Lemma allowed_ask t T u q os : In (OAsk t u q) os -> D + 3000 <= allowed D E t (istamp T os).
Proof.
  intros J. apply in_split in J as (a & b & ->). unfold istamp. rewrite map_app, allowed_app. pose proof (allowed_pos t (map (pair T) a)). cbn [map]. change ((T, OAsk t u q) :: map (pair T) b) with ([(T, OAsk t u q)] ++ map (pair T) b).
  rewrite allowed_app. pose proof (allowed_pos t (map (pair T) b)). assert (allowed D E t [(T, OAsk t u q)] = D + 3000); [|lia]. unfold allowed, asked, begun. cbn [flat_map]. rewrite Nat.eqb_refl. cbn [app length]. lia.
Qed.
Lemma allowed_own t T id os : In (OOwn t id) os -> E <= allowed D E t (istamp T os).
Proof.
  intros J. apply in_split in J as (a & b & ->). unfold istamp. rewrite map_app, allowed_app. pose proof (allowed_pos t (map (pair T) a)). cbn [map]. change ((T, OOwn t id) :: map (pair T) b) with ([(T, OOwn t id)] ++ map (pair T) b).
  rewrite allowed_app. pose proof (allowed_pos t (map (pair T) b)). assert (allowed D E t [(T, OOwn t id)] = E); [|lia]. unfold allowed, asked, begun. cbn [flat_map]. rewrite Nat.eqb_refl. cbn [app length]. lia.
Qed.
(** the turn of task [t]: it comes in time, and so does what follows *)
Lemma timing_turn n0 s tr e n osn t s1 hd s2 os2 x : turn s e n osn t s1 hd (s2, os2, x) -> calm t s1 s2 os2 x -> n_now (i_net s) <= n0 + allowed D E t tr -> (forall m r, In (m, ODone t r) tr -> m <= n0 + allowed D E t tr) ->
  timing n0 (tr ++ istamp (n_now (i_net s)) (map ONet osn ++ hd ++ os2 ++ fin t x)) t (pc_of x).
Proof.
  intros TN CA NOW DN. set (T := n_now (i_net s)) in *. set (os := map ONet osn ++ hd ++ os2 ++ fin t x). unfold timing. rewrite allowed_app. pose proof (allowed_pos t (istamp T os)) as P. split.
  - intros m r J. apply in_app_or in J as [J|J]; [apply DN in J; lia|]. apply in_istamp in J as [-> _]. lia.
  - pose proof (last_turn _ _ _ _ _ _ _ _ TN) as LB. destruct CA as [_ _ _ _ CN]. destruct x as [w fs|r]; cbn [pc_of].
    + destruct w as [u|].
      * destruct CN as [(_ & _ & [])|(os0 & q & h & fs0 & EQ & _ & _ & W & _)]. injection W as -> ->. assert (J : In (OAsk t (next s1) q) os) by (unfold os; rewrite EQ; do 2 (apply in_or_app; right); apply in_or_app; left; apply in_or_app; right; left; reflexivity).
        exists T, q. split; [apply in_or_app; right; apply in_istamp; auto|]. pose proof (allowed_ask t T _ _ _ J). lia.
      * destruct LB as (os0 & id & EQ). assert (J : In (OOwn t id) os) by (unfold os; rewrite EQ; do 2 (apply in_or_app; right); apply in_or_app; left; apply in_or_app; right; left; reflexivity).
        exists (tr ++ istamp T (map ONet osn ++ hd ++ os0)), T, id, []. split; [|split; [intros m o []|pose proof (allowed_own t T _ _ J); lia]].
        rewrite <- app_assoc. f_equal. change ((T, OOwn t id) :: []) with (istamp T [OOwn t id]). rewrite <- stamp_app. unfold os. rewrite EQ. cbn [fin]. rewrite app_nil_r, <- !app_assoc. reflexivity.
    + exists T. apply in_or_app. right. apply in_istamp. split; [reflexivity|]. unfold os. do 3 (apply in_or_app; right). left. reflexivity.
Qed.
Lemma timing_keep n tr T os t p : timing n tr t p -> (forall o, In o os -> ~ does t o) -> timing n (tr ++ istamp T os) t p.
Proof.
  intros [A B] S. pose proof (allowed_pos t (istamp T os)) as P. unfold timing. rewrite allowed_app.
  split; [intros m r J; apply in_app_or in J as [J|J]; [apply A in J; lia|apply in_istamp in J as [_ J]; destruct (S _ J eq_refl)]|].
  destruct p as [[u|] fs|r].
  - destruct B as (T' & q & J & L). exists T', q. split; [apply in_or_app; auto|lia].
  - destruct B as (a & T' & id & b & -> & QT & L). exists a, T', id, (b ++ istamp T os). rewrite <- app_assoc. split; [reflexivity|]. split; [|lia]. intros m o J. apply in_app_or in J as [J|J]; [exact (QT _ _ J)|]. apply in_istamp in J as [_ J]. exact (S _ J).
  - destruct B as (m & J). exists m. apply in_or_app. auto.
Qed.
(** when it may go on: it is not late *)
Lemma not_late es s tr n t w fs : timely D E s0 es s tr -> nth_error (i_tasks s) t = Some (ISusp w fs) -> timing n tr t (ISusp w fs) -> n_now (i_net s) <= n + allowed D E t tr.
Proof.
  intros PX Q [_ B]. pose proof (timely_is _ _ _ _ _ _ PX) as X. destruct w as [u|].
  - destruct B as (T & q & J & LE). assert (n_now (i_net s) <= T + (D + 3000)); [|lia]. apply (asking_time _ _ _ PX _ _ _ _ J). intros m r K.
    destruct (susp_net _ _ _ _ _ _ _ _ X Q) as (_ & _ & nes & p & h0 & _ & _ & ND & SG). apply in_nets in K. destruct p as [|h f dl ph|h f|r']; cbn in SG; [destruct SG as (_ & _ & SG)|destruct SG as (_ & SG)|destruct SG as (_ & SG)|destruct (ND _ eq_refl)]; exact (SG _ _ K).
  - destruct B as (a & T & id & b & EQ & QT & LE). pose proof (own_time _ _ _ PX _ _ _ _ _ EQ QT). lia.
Qed.
Lemma timing_exec es s tr : timely D E s0 es s tr -> forall n t c, In (n, OCall t c) tr -> exists p, nth_error (i_tasks s) t = Some p /\ timing n tr t p.
Proof.
  induction 1 as [|es s tr e s' os PX IH ST TM]; intros n0 t0 c J; [destruct J|]. pose proof (timely_is _ _ _ _ _ _ PX) as X. pose proof (few_exec 1 1 _ _ _ _ _ X) as FI.
  destruct (step_cases s tr e s' os (linked_exec _ _ _ _ _ X) ST) as [(e' & n & osn & -> & SN & -> & -> & NW)|(n & osn & t & s1 & hd & s2 & os2 & x & TN & CA & -> & ->)]; cbn [i_tasks netted].
  - apply in_app_or in J as [J|J]; [|apply in_istamp in J as [_ J]; apply in_map_iff in J as (? & ? & _); discriminate]. destruct (IH _ _ _ J) as (p & Q & TI). exists p. split; [exact Q|]. apply timing_keep; [exact TI|].
    intros o K. apply in_map_iff in K as (? & <- & _). intros [].
  - pose proof (turn_len _ _ _ _ _ _ _ _ TN) as TL. apply in_app_or in J as [J|J].
    + destruct (IH _ _ _ J) as (p & Q & TI). destruct (Nat.eq_dec t0 t) as [->|NE].
      * assert (P : exists w fs, p = ISusp w fs) by (destruct TN as [e' n' osn' u r t' fs s1' hd' r1 -> SN R Q1 F SH|c0 ->|t' r id fs s1' hd' r1 -> Q1 F]; [rewrite Q1 in Q; injection Q as <-; eauto|apply nth_lt in Q; lia|rewrite Q1 in Q; injection Q as <-; eauto]).
        destruct P as (w & fs & ->). exists (pc_of x). split; [apply at_put, TL|]. eapply timing_turn; [exact TN|exact CA|exact (not_late _ _ _ _ _ _ _ PX Q TI)|exact (proj1 TI)].
      * exists p. split; [apply other_put; assumption|]. apply timing_keep; [exact TI|]. intros o K DD. exact (NE (turn_does _ _ _ _ _ _ _ _ _ _ TN CA _ K _ DD)).
    + apply in_istamp in J as [-> J]. destruct (turn_calls _ _ _ _ _ _ _ _ _ _ TN CA _ _ J) as (-> & _ & LEN).
      exists (pc_of x). split; [apply at_put; exact TL|]. eapply timing_turn; [exact TN|exact CA|pose proof (allowed_pos t tr); lia|]. intros m r K. destruct (f_new _ _ _ _ _ FI t ltac:(lia) _ _ K eq_refl).
Qed.
(** the interview ends in time *)
Lemma in_time es s tr n t c : timely D E s0 es s tr -> In (n, OCall t c) tr ->
  (forall m r, In (m, ODone t r) tr -> m <= n + allowed D E t tr) /\ ((forall m r, ~ In (m, ODone t r) tr) -> n_now (i_net s) <= n + allowed D E t tr).
Proof.
  intros PX J. destruct (timing_exec _ _ _ PX _ _ _ J) as (p & Q & TI). split; [exact (proj1 TI)|]. intros ND. destruct p as [w fs|r]; [exact (not_late _ _ _ _ _ _ _ PX Q TI)|]. destruct TI as (_ & m & K). destruct (ND _ _ K).
Qed.
(** and no later than the classes allow *)
Lemma in_all es s tr n t c : timely D E s0 es s tr -> In (n, OCall t c) tr ->
  let last := n + Z.of_nat (due_questions ids c) * (D + 3000) + Z.of_nat (due_others ids c) * E in
  (forall m r, In (m, ODone t r) tr -> m <= last) /\ (last < n_now (i_net s) -> exists m r, In (m, ODone t r) tr).
Proof.
  intros PX J last. pose proof (timely_is _ _ _ _ _ _ PX) as X. destruct (few _ _ _ _ _ _ _ _ X J) as [A B]. destruct (in_time _ _ _ _ _ _ PX J) as [C1 C2]. assert (n + allowed D E t tr <= last) by (unfold last, allowed; nia).
  split; [intros m r K; apply C1 in K; lia|]. intros LT. destruct (timing_exec _ _ _ PX _ _ _ J) as (p & Q & TI). destruct p as [w fs|r]; [pose proof (not_late _ _ _ _ _ _ _ PX Q TI); lia|]. destruct TI as (_ & m & K). eauto.
Qed.
End Timely.
End Steps.

(** checking that a run is timely *)
Definition settled (p : iobs -> bool) (tr : itrace) : bool := existsb (fun x => p (snd x)) tr.
Definition doesb (t : nat) (o : iobs) : bool := match o with OCall t' _ | OVisit t' _ | OAsk t' _ _ | OOwn t' _ | ODone t' _ => Nat.eqb t' t | _ => false end.
Fixpoint own_idle (lim : Z) (tr : itrace) : bool :=
  match tr with
  | [] => true
  | (n, OOwn t _) :: tr' => (settled (doesb t) tr' || (lim <=? n)) && own_idle lim tr'
  | _ :: tr' => own_idle lim tr'
  end.
Definition iidle (D E : Z) (s : istate) (tr : itrace) (dt : Z) : bool :=
  nidle (i_net s) dt && forallb (fun x => match x with
    | (n, OAsk _ u _) => settled (fun o => match o with ONet (NSent v _) | ONet (NRet v _) => Nat.eqb v u | _ => false end) tr || (n_now (i_net s) + dt <=? n + D)
    | _ => true
    end) tr && own_idle (n_now (i_net s) + dt - E) tr.
Fixpoint timely_of (D E : Z) (s : istate) (tr : itrace) (es : list ievent) : option (istate * itrace) :=
  match es with
  | [] => Some (s, tr)
  | e :: es' => if match e with INet (NEvAdvance dt) => iidle D E s tr dt | _ => true end then
      match istep s e with Some (s', os) => timely_of D E s' (tr ++ istamp (n_now (i_net s)) os) es' | None => None end else None
  end.
Lemma own_idle_ok lim a n t id b : own_idle lim (a ++ (n, OOwn t id) :: b) = true -> quiet t b -> lim <= n.
Proof.
  intros H QT. induction a as [|[m o] a IH].
  - cbn in H. apply andb_prop in H as [H _]. apply orb_prop in H as [H|H]; [|lia]. exfalso. apply existsb_exists in H as ([m o] & J & K). apply (QT m o J). destruct o; cbn in *; try discriminate; apply Nat.eqb_eq in K; auto.
  - apply IH. cbn in H. destruct o; auto. apply andb_prop in H as [_ H]. exact H.
Qed.
Lemma timely_ok D E s0 es2 : forall es s tr s' tr', timely D E s0 es s tr -> timely_of D E s tr es2 = Some (s', tr') -> timely D E s0 (es ++ es2) s' tr'.
Proof.
  induction es2 as [|e es2 IH]; intros es s tr s' tr' X Q; cbn [timely_of] in Q; [injection Q as <- <-; rewrite app_nil_r; exact X|].
  destruct (match e with INet (NEvAdvance dt) => iidle D E s tr dt | _ => true end) eqn:I; [|discriminate]. destruct (istep s e) as [[s1 os]|] eqn:S; [|discriminate].
  change (e :: es2) with ([e] ++ es2). rewrite app_assoc. apply (IH _ s1 (tr ++ istamp (n_now (i_net s)) os)); [|exact Q]. apply TI_snoc; [exact X|exact S|]. intros dt ->. apply andb_prop in I as [I I3]. apply andb_prop in I as [I1 I2].
  assert (NO : forall p, settled p tr = true -> exists m o, In (m, o) tr /\ p o = true) by (intros p H; apply existsb_exists in H as ([m o] & H1 & H2); eauto).
  split; [intros d u L; exact (nidle_ok _ _ _ _ I1 L)|]. pose proof (proj1 (forallb_forall _ _) I2) as K. split.
  - intros n t u q J NS NR. specialize (K _ J). cbn in K. apply orb_prop in K as [K|K]; [|lia]. exfalso. apply NO in K as (m & o & A & B). destruct o as [[ | | |]| | | | | |]; try discriminate B; apply Nat.eqb_eq in B; subst; [exact (NS _ _ A)|exact (NR _ _ A)].
  - intros a n t id b EQ QT. subst tr. pose proof (own_idle_ok _ _ _ _ _ _ I3 QT). lia.
Qed.
