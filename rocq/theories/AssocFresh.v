(** Proofs about the interviews of associations and sensors: answers come after their questions. *)
From Coq Require Import String ZArith List Bool Lia ZifyBool.
From Verif Require Import Py Schema Registry Codec Waiter Conn ConnLemmas NodeReq SpecNodeReq NodeReqProofs NodeFresh NodeM CmdClass AssocM SpecAssoc AssocProofs AssocData.
From Verif Require InterviewProofs InterviewVisit.
Import ListNotations.
Open Scope list_scope.
Open Scope string_scope.
Open Scope list_scope.
Open Scope Z_scope.

Definition asked_first (tr : ptrace) : Prop := forall a n t u q b n' r, tr = a ++ (n, POAsk t u q) :: b -> ~ In (n', PONet (NSent u r)) a.
Lemma asked_exec c gs ts es s tr : pexec (pstate0 c gs ts) es s tr -> asked_first tr.
Proof.
  induction 1 as [|es s tr e s' os X IH ST]; intros a n t u q b n' r E J; [destruct a; discriminate|].
  destruct (InterviewVisit.split_two _ _ _ _ _ E) as [[d ->]|(d & -> & E')]; [exact (IH _ _ _ _ _ _ _ _ eq_refl J)|]. clear IH E. destruct (linked_exec _ _ _ _ _ _ X) as [L _].
  assert (NEW : (next (p_net s) <= u)%nat /\ ~ In (n', PONet (NSent u r)) d).
  { destruct (step_cases s e s' os ST) as [(e' & n0 & osn & -> & SN & -> & -> & NW)|(n0 & osn & t0 & hd & gs0 & ts0 & ac & n1 & TN & NA & -> & ->)].
    - exfalso. assert (K : In (n, POAsk t u q) (pstamp (n_now (p_net s)) (map PONet osn))) by (rewrite E'; apply in_or_app; right; left; reflexivity).
      apply in_stamp in K as [_ K]. apply in_map_iff in K as (? & K & _). discriminate.
    - destruct (turn_net _ _ _ _ _ _ _ _ _ TN) as (_ & _ & HA & HO & NS).
      assert (LE : (next (p_net s) <= next n0)%nat /\ forall r0, In (NSent u r0) osn -> (u < next n0)%nat).
      { unfold next. destruct NS as [(-> & -> & _)|(e' & u' & r' & w & -> & SN & Q & R & _)]; [split; [lia|intros ? []]|]. destruct (step_tasks _ _ _ _ SN) as (_ & LN & _). split; [lia|].
        intros r0 J0. destruct (l_net _ _ L) as [es0 XN]. eapply (InterviewVisit.sent_lt _ _ _ (n_now (p_net s)) u r0); [econstructor; [exact XN|exact SN]|]. apply in_or_app. right. unfold nstamp. apply in_map. exact J0. }
      assert (K : In (n, POAsk t u q) (pstamp (n_now (p_net s)) (map PONet osn ++ hd ++ tail_of n0 t0 ac))) by (rewrite E'; apply in_or_app; right; left; reflexivity).
      apply in_stamp in K as [_ K]. apply in_app_or in K as [K|K]; [apply in_map_iff in K as (? & K & _); discriminate|]. apply in_app_or in K as [K|K]; [destruct (HA _ _ _ K)|].
      destruct ac as [q0 h w|q0|r0]; cbn [tail_of] in K; [|destruct K as [K|[]]; discriminate|destruct K as [K|[]]; discriminate]. destruct K as [K|[K|[]]]; [|discriminate]. injection K as <- <- <-. split; [apply LE|]. intros I0.
      assert (I1 : In (n', PONet (NSent (next n0) r)) (pstamp (n_now (p_net s)) (map PONet osn ++ hd ++ tail_of n0 t0 (QAsk q0 h w)))) by (rewrite E'; apply in_or_app; auto).
      apply in_stamp in I1 as [_ I1]. apply in_app_or in I1 as [I1|I1]; [apply in_map_iff in I1 as (o & EO & I1); injection EO as ->; pose proof (proj2 LE _ I1); lia|]. apply in_app_or in I1 as [I1|I1]; [exact (HO _ I1)|].
      cbn in I1. intuition discriminate. }
  destruct NEW as [NX NI]. apply in_app_or in J as [J|J]; [|exact (NI J)]. destruct (l_net _ _ L) as [es0 XN]. apply in_nets in J. pose proof (InterviewVisit.sent_lt _ _ _ _ _ _ XN J). unfold next in NX. lia.
Qed.
Lemma nets_split tr : forall A n o B, nets tr = A ++ (n, o) :: B -> exists a b, tr = a ++ (n, PONet o) :: b /\ nets b = B.
Proof.
  induction tr as [|[n0 o0] tr IH]; intros A n o B E; [destruct A; discriminate|].
  assert (C : nets tr = A ++ (n, o) :: B -> exists a b, (n0, o0) :: tr = a ++ (n, PONet o) :: b /\ nets b = B).
  { intros E0. destruct (IH _ _ _ _ E0) as (a & b & -> & <-). exists ((n0, o0) :: a), b. auto. }
  destruct o0; try (apply C, E). cbn in E. destruct A as [|x A]; cbn in E.
  - injection E as <- <- <-. exists [], tr. auto.
  - injection E as <- E. destruct (IH _ _ _ _ E) as (a & b & -> & <-). exists ((n0, PONet o0) :: a), b. auto.
Qed.
Lemma fresh_new c gs ts es s tr e s' os w m : pexec (pstate0 c gs ts) es s tr -> pstep s e = Some (s', os) -> In m (new w s tr os) ->
  exists wt, says (wq c wt) w = true /\ fresh_answer w (wh c wt) m (tr ++ pstamp (n_now (p_net s)) os).
Proof.
  intros X ST J. destruct (linked_exec _ _ _ _ _ _ X) as [L C]. pose proof (asked_exec _ _ _ _ _ _ X) as AF.
  destruct (step_cases s e s' os ST) as [Q|(n & osn & t & hd & gs0 & ts0 & ac & n1 & TN & NA & -> & ->)].
  { rewrite (quiet_answers s tr e s' os w L Q) in J. destruct J. }
  rewrite (turn_answers _ _ _ _ _ _ _ _ _ _ w L TN) in J.
  destruct (turn_net _ _ _ _ _ _ _ _ _ TN) as (_ & _ & _ & _ & [(-> & -> & _)|(e' & u & r & wt & -> & SN & Q & R & _ & RI)]); [destruct J|]. rewrite R, Q in J.
  destruct r as [b|m0|y]; try destruct J. destruct (says (wq (p_cls s) wt) w) eqn:SY; [|destruct J]. destruct J as [->|[]]. pose proof (InterviewVisit.msg_alone _ _ _ _ _ _ SN RI) as ->.
  destruct (l_susp _ _ L _ _ _ Q) as (p & n2 & _ & _ & A). destruct (reply _ _ _ _ _ _ _ _ _ L SN RI Q) as (HH & n0 & RV). rewrite C in *. exists wt. split; [exact SY|].
  rewrite since_sent_app in RV. destruct (sent_ok u (nets tr)) eqn:SO.
  2:{ cbn in RV. destruct RV. }
  apply in_app_or in RV as [RV|RV]; [|destruct RV as [RV|[]]; discriminate]. apply since_split in RV as (a & n3 & b & NE & RV). apply nets_split in NE as (a' & b' & TE & BE). subst b. apply in_nets in RV.
  apply in_split in RV as (d & f & RV). apply in_split in A as (a0 & b0 & AE).
  assert (ORD : exists b1, a' = a0 ++ (n2, POAsk t u (wq c wt)) :: b1).
  { rewrite TE in AE. destruct (InterviewVisit.split_two _ _ _ _ _ AE) as [[c0 ->]|(c0 & E0 & E1)]; [eauto|]. exfalso. destruct c0 as [|z c0]; [cbn in E1; discriminate|]. cbn in E1. injection E1 as <- E1.
    apply (AF a0 n2 t u (wq c wt) b0 n3 (Ok true)); [rewrite TE; exact AE|]. rewrite E0. apply in_or_app. right. left. reflexivity. }
  destruct ORD as [b1 ->]. rewrite RV in TE. rewrite TE. unfold fresh_answer. exists t, u, (wq c wt), n2, n3, n0, (n_now (p_net s)), a0, b1, d, f. eexists. split; [exact SY|]. split; [exact HH|].
  cbn [map app pstamp]. repeat (rewrite <- app_assoc; cbn [app]). reflexivity.
Qed.
Lemma fresh_more w h m a b : fresh_answer w h m a -> fresh_answer w h m (a ++ b).
Proof.
  intros (t & u & q & n1 & n2 & n3 & n4 & x1 & x2 & x3 & x4 & x5 & A & B & ->). exists t, u, q, n1, n2, n3, n4, x1, x2, x3, x4, (x5 ++ b). split; [exact A|]. split; [exact B|].
  repeat (rewrite <- app_assoc; cbn [app]). reflexivity.
Qed.
Lemma fresh_exec c gs ts es s tr w m : pexec (pstate0 c gs ts) es s tr -> In m (answers w tr) -> exists wt, says (wq c wt) w = true /\ fresh_answer w (wh c wt) m tr.
Proof.
  induction 1 as [|es s tr e s' os X IH ST]; intros J; [destruct J|]. unfold answers in J. rewrite answers_app in J. apply in_app_or in J as [J|J].
  - destruct (IH J) as (wt & A & B). exists wt. auto using fresh_more.
  - exact (fresh_new _ _ _ _ _ _ _ _ _ _ _ X ST J).
Qed.
Lemma group_fresh c gs ts es s tr i m : pexec (pstate0 c gs ts) es s tr -> byte i -> In m (answers (group_question c i) tr) -> fresh_answer (group_question c i) (group_report c) m tr.
Proof.
  intros X B J. destruct (fresh_exec _ _ _ _ _ _ _ _ X J) as (wt & S & F). apply group_is in S; [|exact B]. assert (E : wh c wt = group_report c); [|rewrite <- E; exact F].
  destruct wt; try discriminate; cbn [wh]; unfold group_h, group_report, supports; destruct (dmem Z.eqb 142 (n_supported c)); reflexivity.
Qed.
Lemma scale_fresh c gs ts es s tr k m : pexec (pstate0 c gs ts) es s tr -> byte k -> In m (answers (scale_question k) tr) -> fresh_answer (scale_question k) scale_report m tr.
Proof. intros X B J. destruct (fresh_exec _ _ _ _ _ _ _ _ X J) as (wt & S & F). apply scale_is in S; [|exact B]. destruct wt; try discriminate. exact F. Qed.
Lemma count_fresh c gs ts es s tr m : pexec (pstate0 c gs ts) es s tr -> In m (answers count_question tr) -> fresh_answer count_question (133 * 256 + 6) m tr.
Proof. intros X J. destruct (fresh_exec _ _ _ _ _ _ _ _ X J) as (wt & S & F). apply count_is in S. subst wt. exact F. Qed.
Lemma prun_exec s0 es s tr : prun s0 es = Some (s, tr) -> pexec s0 es s tr.
Proof.
  assert (G : forall es s1 s tr es0 tr0, pexec s0 es0 s1 tr0 -> prun s1 es = Some (s, tr) -> pexec s0 (es0 ++ es) s (tr0 ++ tr)).
  { clear. induction es as [|e es IH]; intros s1 s tr es0 tr0 X H.
    - injection H as <- <-. rewrite !app_nil_r. exact X.
    - cbn [prun] in H. destruct (pstep s1 e) as [[s2 os]|] eqn:E; [|discriminate]. destruct (prun s2 es) as [[s3 tr2]|] eqn:R; [|discriminate]. injection H as <- <-.
      pose proof (IH _ _ _ _ _ (PX_snoc _ _ _ _ _ _ _ X E) R) as Y. rewrite <- !app_assoc in Y. exact Y. }
  intros H. exact (G es _ s tr [] [] (PX_nil _) H).
Qed.

(** ** a node that answers what was asked last *)
Definition apart (Q : Z -> list Z) : Prop := forall i j, Q i = Q j -> i = j.
Lemma group_apart c : apart (group_question c). Proof. intros i j H. unfold group_question in H. congruence. Qed.
Lemma scale_apart : apart scale_question. Proof. intros i j H. unfold scale_question in H. congruence. Qed.
Lemma last_question_one Q tr i j : apart Q -> last_question Q tr i -> last_question Q tr j -> i = j.
Proof.
  intros AP (a & n & t & u & q & b & E & QI & N) (a' & n' & t' & u' & q' & b' & E' & QJ & N'). rewrite E in E'.
  destruct (InterviewVisit.split_two _ _ _ _ _ E') as [[c Y]|([|z c] & Y & Y')].
  - exfalso. assert (B : b' = c ++ (n, POAsk t u q) :: b).
    { rewrite Y in E'. rewrite <- app_assoc in E'. cbn in E'. apply app_inv_head in E'. injection E' as E'. symmetry. exact E'. }
    rewrite (N' n t u q i) in QI; [discriminate|]. rewrite B. apply in_or_app. right. left. reflexivity.
  - cbn in Y'. injection Y' as _ _ _ -> _. apply says_eq in QI, QJ. rewrite QI in QJ. injection QJ as QJ. exact (AP _ _ QJ).
  - exfalso. cbn in Y'. injection Y' as _ Y'. rewrite (N n' t' u' q' j) in QJ; [discriminate|]. rewrite Y'. apply in_or_app. right. left. reflexivity.
Qed.
Lemma prompt_named Q h f tr i m : apart Q -> one_at_a_time Q tr -> prompt_node Q h f tr -> fresh_answer (Q i) h m tr -> SpecAssoc.number f m = [i].
Proof.
  intros AP O P (t & u & q & n1 & n2 & n3 & n4 & a & b & c & d & e & S & H & E).
  destruct (P (a ++ (n1, POAsk t u q) :: b ++ (n2, PONet (NSent u (Ok true))) :: c) n3 m (Ok true) (d ++ (n4, PONet (NRet u (RMsg m))) :: e)) as (j & LQ & G); [rewrite E; repeat (rewrite <- app_assoc; cbn [app]); reflexivity|exact H|].
  assert (LQ' : last_question Q (a ++ (n1, POAsk t u q) :: b ++ (n2, PONet (NSent u (Ok true))) :: c) i).
  { exists a, n1, t, u, q, (b ++ (n2, PONet (NSent u (Ok true))) :: c). split; [reflexivity|]. split; [exact S|]. intros n5 t2 u2 q2 i2 I.
    apply (O a n1 t u q i (b ++ (n2, PONet (NSent u (Ok true))) :: c ++ (n3, PONet (NRecv m (Ok true))) :: d) n4 (RMsg m) e) with (n2 := n5) (t2 := t2) (u2 := u2); [rewrite E; repeat (rewrite <- app_assoc; cbn [app]); reflexivity|exact S|].
    apply in_app_or in I as [I|[I|I]]; [apply in_or_app; auto|discriminate|]. apply in_or_app. right. right. apply in_or_app. auto. }
  rewrite (last_question_one _ _ _ _ AP LQ LQ') in G. exact G.
Qed.
