(** Proofs about the end of mailbox handlers. *)
From Coq Require Import String ZArith List Bool Lia.
From Verif Require Import Py Schema Registry Codec Waiter ConnLemmas MailboxM SpecMailbox MailboxProofs MailboxMore SpecMailboxTo MailboxTo SpecMailboxEnd.
Import ListNotations.
Open Scope list_scope.
Open Scope string_scope.
Open Scope list_scope.
Open Scope Z_scope.

Lemma inputs_app a b : inputs (a ++ b) = inputs a ++ inputs b. Proof. apply flat_map_app. Qed.
Lemma results_app t a b : results t (a ++ b) = results t a ++ results t b. Proof. apply flat_map_app. Qed.
Lemma sent_app t a b : sent_by t (a ++ b) = sent_by t a ++ sent_by t b. Proof. apply flat_map_app. Qed.

Definition at_end (t : nat) (node : Z) (p : mpc) (tr : mtrace) : Prop :=
  match p with
  | MDone r => results t tr = [r] /\ (sent_by t tr = [] \/ exists m', sent_by t tr = [(node, m')])
  | _ => results t tr = [] /\ exists m', sent_by t tr = [(node, m')]
  end.
Definition HI (s : mbox) (tr : mtrace) : Prop :=
  length (inputs tr) = length (m_tasks s) /\ (forall t, (length (m_tasks s) <= t)%nat -> results t tr = [] /\ sent_by t tr = []) /\
  forall t p, nth_error (m_tasks s) t = Some p -> exists node m, nth_error (inputs tr) t = Some (node, m) /\ at_end t node p tr.
Lemma quiet_step s s' tr os : HI s tr -> m_tasks s' = m_tasks s -> inputs os = [] -> (forall t, results t os = [] /\ sent_by t os = []) -> HI s' (tr ++ os).
Proof.
  intros (L & N & H) T I Q. split; [rewrite inputs_app, I, app_nil_r, T; exact L|]. split.
  - intros t J. rewrite T in J. destruct (N t J) as [A B]. destruct (Q t) as [C D]. rewrite results_app, sent_app, A, B, C, D. auto.
  - intros t p J. rewrite T in J. destruct (H t p J) as (node & m & A & B). exists node, m. rewrite inputs_app, I, app_nil_r. split; [exact A|]. destruct (Q t) as [C D]. unfold at_end. rewrite results_app, sent_app, C, D, !app_nil_r. exact B.
Qed.
Lemma new_step s s' tr node m p os n : HI s tr -> m_tasks s' = m_tasks s ++ [p] -> (exists o, os = [o] /\ match o with MRet t r => t = length (m_tasks s) /\ p = MDone r | MSend (ByTask t) node' _ => t = length (m_tasks s) /\ node' = node /\ (forall r, p <> MDone r) | _ => False end) -> HI s' (tr ++ mstamp n (MIn node m :: os)).
Proof.
  intros (L & N & H) T (o & -> & O).
  assert (OT : forall t, t <> length (m_tasks s) -> results t (mstamp n [MIn node m; o]) = [] /\ sent_by t (mstamp n [MIn node m; o]) = []).
  { intros t J. unfold results, sent_by. cbn. destruct o as [| [t'|] | |t' r]; try destruct O; try (split; reflexivity); destruct (Nat.eqb_spec t' t); try congruence; split; reflexivity. }
  assert (I : inputs (mstamp n [MIn node m; o]) = [(node, m)]) by (destruct o; try destruct O; reflexivity).
  split; [rewrite inputs_app, I, T, !app_length; cbn; lia|]. split.
  - intros t J. rewrite T, app_length in J. cbn in J. destruct (N t ltac:(lia)) as [A B]. destruct (OT t ltac:(lia)) as [C D]. rewrite results_app, sent_app, A, B, C, D. auto.
  - intros t q J. rewrite T in J. rewrite inputs_app, I. destruct (Nat.eq_dec t (length (m_tasks s))) as [->|NE].
    + rewrite nth_error_app2, Nat.sub_diag in J by lia. injection J as <-. exists node, m. rewrite nth_error_app2, L, Nat.sub_diag by lia. split; [reflexivity|]. destruct (N _ (le_n _)) as [A B]. unfold at_end. rewrite results_app, sent_app, A, B. unfold results, sent_by. cbn.
      destruct o as [nd0 mm|[t'|b'] node' m'|ts bs|t' r]; [destruct O|destruct O as (-> & -> & O)|destruct O|destruct O|destruct O as [-> ->]]; rewrite ?Nat.eqb_refl; cbn.
      * destruct p; [split; [reflexivity|eauto]..|]. destruct (O r eq_refl).
      * auto.
    + assert (J' : nth_error (m_tasks s) t = Some q). { destruct (Nat.lt_ge_cases t (length (m_tasks s))) as [K|K]; [rewrite nth_error_app1 in J by exact K; exact J|]. rewrite nth_error_app2 in J by exact K. destruct (t - length (m_tasks s))%nat as [|[|z]] eqn:Z; [lia|discriminate|discriminate]. }
      destruct (H t q J') as (nd & m0 & A & B). exists nd, m0. split; [rewrite nth_error_app1 by (rewrite L; apply nth_error_Some; rewrite J'; discriminate); exact A|]. destruct (OT t NE) as [C D]. unfold at_end. rewrite results_app, sent_app, C, D, !app_nil_r. exact B.
Qed.
Lemma end_step s s' tr t p r os n : HI s tr -> nth_error (m_tasks s) t = Some p -> (forall r, p <> MDone r) -> m_tasks s' = upd t (MDone r) (m_tasks s) -> (os = [MRet t r] \/ exists b, os = [MStored t b; MRet t r]) -> HI s' (tr ++ mstamp n os).
Proof.
  intros (L & N & H) P ND T O.
  assert (I : inputs (mstamp n os) = [] /\ (forall t', sent_by t' (mstamp n os) = []) /\ forall t', results t' (mstamp n os) = if Nat.eqb t t' then [r] else []).
  { destruct O as [->|[b ->]]; (split; [reflexivity|split; [reflexivity|intros t'; unfold results; cbn; rewrite app_nil_r; reflexivity]]). }
  destruct I as (I & S & R). assert (LT : (t < length (m_tasks s))%nat) by (apply nth_error_Some; rewrite P; discriminate). split; [rewrite inputs_app, I, app_nil_r, T, upd_length; exact L|]. split.
  - intros t' J. rewrite T, upd_length in J. destruct (N t' J) as [A B]. rewrite results_app, sent_app, A, B, S, R. destruct (Nat.eqb_spec t t'); [lia|auto].
  - intros t' q J. rewrite T, nth_upd in J. rewrite inputs_app, I, app_nil_r. destruct (Nat.eqb_spec t t') as [<-|NE].
    + rewrite P in J. injection J as <-. destruct (H t p P) as (nd & m & A & B). exists nd, m. split; [exact A|]. cbn [at_end]. rewrite results_app, sent_app, S, R, Nat.eqb_refl, app_nil_r. destruct p; try (destruct B as [-> B]; auto; fail). destruct (ND r0 eq_refl).
    + destruct (H t' q J) as (nd & m & A & B). exists nd, m. split; [exact A|]. unfold at_end. rewrite results_app, sent_app, S, R. destruct (Nat.eqb_spec t t'); [contradiction|]. rewrite !app_nil_r. exact B.
Qed.
Lemma HI_exec es s tr : mexec mbox0 es s tr -> HI s tr.
Proof.
  induction 1 as [|es s tr e s' os X IH ST].
  - split; [reflexivity|]. split; [auto|]. intros [|t] p J; discriminate J.
  - apply step_case in ST.
    destruct ST as [dt s' D N T B Q|node m r s' N T B Q|node m h0 s' E N T B Q|node m h0 rest it s' E N T B Q|node m h0 d0 s' P NC N T B Q|t r r' p s' H K N T B Q|t it s' H N T B Q
      |t node h0 d0 s' H N T B Q|b node h0 d0 i due s' H D N T B Q|b node h0 d0 i r s' H N T B Q].
    + apply (quiet_step s); [exact IH|exact T|reflexivity|intros t; split; reflexivity].
    + eapply new_step; [exact IH|exact T|]. eexists. split; [reflexivity|]. split; reflexivity.
    + eapply new_step; [exact IH|exact T|]. eexists. split; [reflexivity|]. split; [reflexivity|]. split; [reflexivity|discriminate].
    + eapply new_step; [exact IH|exact T|]. eexists. split; [reflexivity|]. split; [reflexivity|]. split; [reflexivity|discriminate].
    + eapply new_step; [exact IH|exact T|]. eexists. split; [reflexivity|]. split; [reflexivity|]. split; [reflexivity|discriminate].
    + eapply end_step; [exact IH|exact H| |exact T|auto]. intros r0 ->. destruct K as [K|[(it & K & _)|(nd & hh & d & K & _)]]; discriminate.
    + eapply end_step; [exact IH|exact H|discriminate|exact T|auto].
    + eapply end_step; [exact IH|exact H|discriminate|exact T|eauto].
    + apply (quiet_step s); [exact IH|exact T|reflexivity|intros t; split; reflexivity].
    + apply (quiet_step s); [exact IH|exact T|reflexivity|intros t; split; reflexivity].
Qed.
Lemma in_results t r tr : In r (results t tr) <-> exists n, In (n, MRet t r) tr.
Proof.
  unfold results. rewrite in_flat_map. split.
  - intros ([n o] & J & K). cbn [snd] in K. destruct o as [| | |t' r']; try destruct K. destruct (Nat.eqb_spec t' t) as [->|]; [|destruct K]. destruct K as [->|[]]. eauto.
  - intros [n J]. exists (n, MRet t r). split; [exact J|]. cbn. rewrite Nat.eqb_refl. left. reflexivity.
Qed.
(** a handler sends at most one message, to the sender of its own, and ends at most once *)
Lemma once es s tr t node m : mexec mbox0 es s tr -> nth_error (inputs tr) t = Some (node, m) -> (sent_by t tr = [] \/ exists m', sent_by t tr = [(node, m')]) /\ (results t tr = [] \/ exists r, results t tr = [r]).
Proof.
  intros X I. destruct (HI_exec _ _ _ X) as (L & _ & H). destruct (nth_error (m_tasks s) t) as [p|] eqn:P.
  - destruct (H t p P) as (nd & m0 & A & B). rewrite I in A. injection A as <- <-. destruct p; cbn [at_end] in B; destruct B as [-> B]; eauto.
  - exfalso. apply nth_error_None in P. assert (nth_error (inputs tr) t = None) by (apply nth_error_None; lia). congruence.
Qed.
(** one that has not ended has called sendToNode, and ends as soon as that call does *)
Lemma ends es s tr t node m : mexec mbox0 es s tr -> nth_error (inputs tr) t = Some (node, m) -> results t tr = [] ->
  (exists m', sent_by t tr = [(node, m')]) /\ forall r, exists s' os r', mstep s (EvSent t r) = Some (s', os ++ [MRet t r']).
Proof.
  intros X I R. destruct (HI_exec _ _ _ X) as (L & _ & H). destruct (nth_error (m_tasks s) t) as [p|] eqn:P.
  2:{ exfalso. apply nth_error_None in P. assert (nth_error (inputs tr) t = None) by (apply nth_error_None; lia). congruence. }
  destruct (H t p P) as (nd & m0 & A & B). rewrite I in A. injection A as <- <-. split; [destruct p; cbn [at_end] in B; try exact (proj2 B); destruct B as [B _]; congruence|].
  intros r. cbn [mstep]. unfold sent. rewrite P. destruct p; cbn [at_end] in B; [destruct r| |destruct r as [[]|]|destruct B; congruence]; try (eexists _, [], _; reflexivity). eexists _, [_], _. reflexivity.
Qed.
(** exceptions *)
Lemma message_fault t node m s e : snd (on_message t node m s) = [MRet t (Err e)] -> e = EType /\ asks m /\ aim (m_last s) m = None.
Proof.
  assert (PO : forall ho s0, snd (pop_queue t node ho s0) = [MRet t (Err e)] -> e = EType /\ ho = None).
  { intros ho s0. unfold pop_queue. destruct ho as [h|]; [|intros J; injection J as <-; auto]. destruct (pop_last (queue h s0)) as [[it rest]|]; rewrite queue_msg_ok; discriminate. }
  assert (PU : forall ho d s0, snd (push_queue t node ho d s0) = [MRet t (Err e)] -> e = EType /\ ho = None).
  { intros ho d s0. unfold push_queue. destruct ho as [h|]; [|intros J; injection J as <-; auto]. cbv zeta. destruct (existsb _ _); [discriminate|]. rewrite queue_msg_ok. discriminate. }
  unfold on_message. change (is_type m_Mailbox_WakeupNotification m) with (called "Mailbox.WakeupNotification" m). change (is_type m_Mailbox_Queue m) with (called "Mailbox.Queue" m).
  change (int_val (getattr m "queueHandle")) with (number "queueHandle" m). change (int_val (getattr m "operation")) with (number "operation" m). cbv zeta. unfold asks, aim.
  destruct (called "Mailbox.WakeupNotification" m) eqn:W; [intros J; apply PO in J as [-> ->]; auto|]. destruct (called "Mailbox.Queue" m) eqn:Q; [|discriminate].
  destruct (number "operation" m) as [[|[p|[p|[p|p|]|]|]|p]|]; try discriminate.
  - intros J. apply PU in J as [-> ->]. auto 6.
  - intros J. apply PO in J as [-> K]. split; [reflexivity|]. split; [auto 6|]. destruct (number "queueHandle" m) as [[|p|p]|]; exact K.
Qed.
Lemma given_app t tr a m os : given t tr a m -> given t (tr ++ os) a m.
Proof. intros (n & node & b & -> & L). exists n, node, (b ++ os). split; [rewrite <- app_assoc; reflexivity|exact L]. Qed.
Lemma faults es s tr n t e : mexec mbox0 es s tr -> In (n, MRet t (Err e)) tr -> In (EvSent t (Err e)) es \/ e = EType /\ exists a m, given t tr a m /\ asks m /\ about a m = None.
Proof.
  intros X. induction X as [|es s tr v s' os X IH ST]; intros J; [destruct J|]. apply in_app_or in J as [J|J].
  - destruct (IH J) as [K|(K & a & m & G & K')]; [left; apply in_or_app; auto|]. right. split; [exact K|]. exists a, m. split; [exact (given_app _ _ _ _ _ G)|exact K'].
  - unfold mstamp in J. apply in_map_iff in J as (o & O & J). injection O as <- ->. destruct v as [dt|node m|t0 r|b|b r]; cbn [mstep] in ST.
    + destruct (0 <=? dt); [|discriminate]. injection ST as <- <-. destruct J.
    + right. destruct (on_message _ _ _ _) as [s1 o] eqn:E. injection ST as <- <-. destruct J as [J|J]; [discriminate|].
      assert (K : t = length (m_tasks s) /\ o = [MRet t (Err e)]).
      { assert (ST : mstep s (EvMessage node m) = Some (s1, MIn node m :: o)) by (cbn [mstep]; rewrite E; reflexivity). apply step_case in ST.
        inversion ST; subst; destruct J as [J|[]]; try discriminate J. injection J as <- <-. auto. }
      destruct K as [K1 K2]. pose proof (message_fault (length (m_tasks s)) node m (add_mtask (MDone (Err EUnmodelled)) s) e) as F. rewrite E, <- K1 in F. cbn [snd add_mtask m_last] in F. destruct (F K2) as (-> & A & B).
      split; [reflexivity|]. exists tr, m. split; [|split; [exact A|rewrite about_aim, <- (last_exec _ _ _ X); exact B]]. eexists _, node, _. split; [cbn; reflexivity|]. rewrite K1. exact (proj1 (HI_exec _ _ _ X)).
    + left. apply in_or_app. right. left. unfold sent in ST. destruct (nth_error (m_tasks s) t0) as [[it| |nd h d|r0]|]; try discriminate.
      * destruct r as [b|x]; injection ST as <- <-; destruct J as [J|[]]; injection J; intros; subst; congruence.
      * injection ST as <- <-. destruct J as [J|[]]. injection J; intros; subst; congruence.
      * destruct r as [[]|x]; injection ST as <- <-; repeat (destruct J as [J|J]; [try discriminate J; injection J; intros; subst; congruence|]); destruct J.
    + destruct (nth_error (m_beats s) b) as [[nd hh data i []]|]; try discriminate. destruct (due <=? m_now s); [|discriminate]. rewrite queue_msg_ok in ST. injection ST as <- <-. destruct J as [J|[]]; discriminate.
    + destruct (nth_error (m_beats s) b) as [[nd hh data i []]|]; try discriminate. injection ST as <- <-. destruct J.
Qed.
(** messages that ask for nothing *)
Lemma ignored s node m : ~ asks m -> exists s', mstep s (EvMessage node m) = Some (s', [MIn node m; MRet (length (m_tasks s)) (Ok false)]).
Proof.
  intros N. cbn [mstep]. unfold on_message. change (is_type m_Mailbox_WakeupNotification m) with (called "Mailbox.WakeupNotification" m). change (is_type m_Mailbox_Queue m) with (called "Mailbox.Queue" m).
  change (int_val (getattr m "operation")) with (number "operation" m). cbv zeta. unfold asks in N. destruct (called "Mailbox.WakeupNotification" m); [tauto|]. destruct (called "Mailbox.Queue" m); [|eauto].
  destruct (number "operation" m) as [[|[p|[p|[p|p|]|]|]|p]|]; try (eauto; fail); tauto.
Qed.
