(** What a single task does: its stack of coroutines and its history. *)
From Coq Require Import String ZArith List Bool Lia.
From Verif Require Import Py Schema Registry Codec Waiter Conn SpecConn ConnLemmas ConnInv ConnCases Gateway SpecGateway GatewayProofs.
Import ListNotations.
Open Scope list_scope.
Open Scope string_scope.
Open Scope list_scope.
Open Scope Z_scope.

Lemma own_app t a b : own t (a ++ b) = own t a ++ own t b.
Proof. unfold own. rewrite map_app. apply filter_app. Qed.
Lemma own_stamp t n os : own t (gstamp n os) = filter (mine t) os.
Proof. unfold own, gstamp. rewrite map_map. cbn. rewrite map_id. reflexivity. Qed.
Lemma mine_no_task t os : Forall no_task os -> filter (mine t) os = [].
Proof. induction 1 as [|o os H _ IH]; [reflexivity|]. cbn. unfold mine. rewrite H. exact IH. Qed.
Lemma mine_said t t' a : t' <> t -> filter (mine t') (said t a) = [].
Proof. intros NE. destruct a; [|reflexivity]. cbn. destruct (Nat.eqb_spec t t'); [congruence|reflexivity]. Qed.
Lemma mine_said_same t a : filter (mine t) (said t a) = said t a.
Proof. destruct a; [|reflexivity]. cbn. rewrite Nat.eqb_refl. reflexivity. Qed.
Lemma mine_ours t t' os : t' <> t -> Forall (ours t) os -> filter (mine t') os = [].
Proof.
  intros NE. induction 1 as [|o os H _ IH]; [reflexivity|]. cbn. rewrite IH. unfold mine. destruct o; cbn in H |- *; subst; try contradiction; try reflexivity.
  all: destruct (Nat.eqb_spec t t'); [congruence|reflexivity].
Qed.

Section Story.
Variable ord : list Z -> list Z.
Lemma start_ours t c d d' os a : start ord t c d = (d', os, a) -> Forall (ours t) os.
Proof. intros E. pose proof (good_start ord t c d) as G. rewrite E in G. exact (moves_ours _ _ _ _ G). Qed.
Lemma unwind_ours t r fs d d' os a : unwind ord t r fs d = (d', os, a) -> Forall (ours t) os.
Proof. intros E. pose proof (good_unwind ord t fs r d) as G. rewrite E in G. exact (moves_ours _ _ _ _ G). Qed.
(** what one step adds to the history of every task *)
Lemma case_own s e s' os : gcase ord s e s' os -> forall t, t <> length (g_tasks s) -> (forall c w fs, nth_error (g_tasks s) t <> Some (mkGT c (GWait w fs))) -> filter (mine t) os = [].
Proof.
  intros K t NE NW. destruct K as [e s' os T S N|e c d os a pre S N _|e t' c w fs r d1 d os a pre E SM B N U].
  - apply mine_no_task. exact N.
  - rewrite filter_app, (mine_no_task _ _ N). cbn. destruct (Nat.eqb_spec (length (g_tasks s)) t); [congruence|]. rewrite filter_app, (mine_ours _ _ _ NE (start_ours _ _ _ _ _ _ S)), (mine_said _ _ _ NE). reflexivity.
  - assert (NE' : t <> t') by (intros ->; exact (NW _ _ _ E)). rewrite filter_app, (mine_no_task _ _ N). cbn. destruct (Nat.eqb_spec t' t); [congruence|].
    rewrite filter_app, (mine_ours _ _ _ NE' (unwind_ours _ _ _ _ _ _ _ U)), (mine_said _ _ _ NE'). reflexivity.
Qed.
Section History.
Variable P : nat -> gcall -> gpc -> list gobs -> Prop.
Hypothesis P_start : forall t c d d' os a, start ord t c d = (d', os, a) -> P t c (pc_of a) (GCalled t c :: filter (mine t) os ++ said t a).
Hypothesis P_wake : forall t c w fs r d d' os a h pre, P t c (GWait w fs) h -> back w r pre -> unwind ord t r fs d = (d', os, a) ->
  P t c (pc_of a) (h ++ GBack t w r :: filter (mine t) os ++ said t a).
Lemma story es s tr : gexec ord gw0 es s tr -> (forall t c p, nth_error (g_tasks s) t = Some (mkGT c p) -> P t c p (own t tr)) /\ (forall t, (length (g_tasks s) <= t)%nat -> own t tr = []).
Proof.
  induction 1 as [|es s tr e s' os X [IH1 IH2] ST]; [split; [intros [|t] c p E; discriminate|reflexivity]|].
  apply step_case in ST. pose proof (case_own _ _ _ _ ST) as Q.
  assert (OW : forall t, own t (tr ++ gstamp (g_now s) os) = own t tr ++ filter (mine t) os) by (intros t; rewrite own_app, own_stamp; reflexivity).
  destruct ST as [e s' os T S N|e c d os a pre S N _|e t0 c w fs r d1 d os a pre E SM B N U].
  - rewrite T. assert (Z : forall t, own t (tr ++ gstamp (g_now s) os) = own t tr) by (intros t; rewrite OW, (mine_no_task _ _ N), app_nil_r; reflexivity).
    split; [intros t c p E; rewrite Z; exact (IH1 _ _ _ E)|intros t L; rewrite Z; exact (IH2 _ L)].
  - cbn [g_tasks]. assert (Z : forall t, t <> length (g_tasks s) -> filter (mine t) (pre ++ GCalled (length (g_tasks s)) c :: os ++ said (length (g_tasks s)) a) = []).
    { intros t NE. rewrite filter_app, (mine_no_task _ _ N). cbn. destruct (Nat.eqb_spec (length (g_tasks s)) t); [congruence|].
      rewrite filter_app, (mine_ours _ _ _ NE (start_ours _ _ _ _ _ _ S)), (mine_said _ _ _ NE). reflexivity. }
    split.
    + intros t c' p E. rewrite nth_snoc in E. rewrite OW. destruct (Nat.eqb_spec t (length (g_tasks s))) as [->|NE]; [|rewrite (Z _ NE), app_nil_r; exact (IH1 _ _ _ E)].
      injection E as <- <-. rewrite IH2 by lia. rewrite filter_app, (mine_no_task _ _ N). cbn. rewrite Nat.eqb_refl, filter_app, mine_said_same. exact (P_start _ _ _ _ _ _ S).
    + intros t L. rewrite app_length in L. cbn in L. rewrite OW, IH2 by lia. cbn. apply Z. lia.
  - cbn [g_tasks]. pose proof (nth_lt _ _ _ E) as LT. assert (Z : forall t, t <> t0 -> filter (mine t) (pre ++ GBack t0 w r :: os ++ said t0 a) = []).
    { intros t NE. rewrite filter_app, (mine_no_task _ _ N). cbn. destruct (Nat.eqb_spec t0 t); [congruence|].
      rewrite filter_app, (mine_ours _ _ _ NE (unwind_ours _ _ _ _ _ _ _ U)), (mine_said _ _ _ NE). reflexivity. }
    split.
    + intros t c' p E'. rewrite nth_upd in E'. rewrite OW. destruct (Nat.eqb_spec t0 t) as [<-|NE].
      * rewrite E in E'. injection E' as <- <-. rewrite filter_app, (mine_no_task _ _ N). cbn. rewrite Nat.eqb_refl, filter_app, mine_said_same. exact (P_wake _ _ _ _ _ _ _ _ _ _ _ (IH1 _ _ _ E) B U).
      * rewrite Z, app_nil_r by congruence. exact (IH1 _ _ _ E').
    + intros t L. rewrite upd_length in L. rewrite OW, IH2, Z by lia. reflexivity.
Qed.
End History.

(** the first observation of a task is its call, and a task that returned is over *)
Definition told (t : nat) (c : gcall) (p : gpc) (h : list gobs) : Prop :=
  (exists h', h = GCalled t c :: h' /\ forall t' c', ~ In (GCalled t' c') h') /\ match p with GDone r => exists h', h = h' ++ [GRet t r] /\ forall t' r', ~ In (GRet t' r') h' | GWait _ _ => forall t' r, ~ In (GRet t' r) h end.
Lemma ours_no t os : Forall (ours t) os -> forall t' c r, ~ In (GCalled t' c) (filter (mine t) os) /\ ~ In (GRet t' r) (filter (mine t) os).
Proof.
  intros F t' c r. rewrite Forall_forall in F. split; intros J; apply filter_In in J as [J _]; exact (F _ J).
Qed.
Lemma told_all es s tr : gexec ord gw0 es s tr -> forall t c p, nth_error (g_tasks s) t = Some (mkGT c p) -> told t c p (own t tr).
Proof.
  intros X. apply (story told) with (es := es).
  - intros t c d d' os a E. pose proof (ours_no _ _ (start_ours _ _ _ _ _ _ E)) as N. split.
    + eexists. split; [reflexivity|]. intros t' c' J. apply in_app_or in J as [J|J]; [exact (proj1 (N t' c' (Err EKey)) J)|]. destruct a; cbn in J; [destruct J as [J|[]]; discriminate|exact J].
    + destruct a as [r|w fs]; cbn [pc_of said].
      * exists (GCalled t c :: filter (mine t) os). split; [reflexivity|]. intros t' r' [J|J]; [discriminate|]. exact (proj2 (N t' c r') J).
      * intros t' r [J|J]; [discriminate|]. rewrite app_nil_r in J. exact (proj2 (N t' c r) J).
  - intros t c w fs r d d' os a h pre [(h' & -> & H1) H2] B E. pose proof (ours_no _ _ (unwind_ours _ _ _ _ _ _ _ E)) as N. split.
    + eexists. split; [reflexivity|]. intros t' c' J. apply in_app_or in J as [J|[J|J]]; [exact (H1 _ _ J)|discriminate|]. apply in_app_or in J as [J|J]; [exact (proj1 (N t' c' (Err EKey)) J)|].
      destruct a; cbn in J; [destruct J as [J|[]]; discriminate|exact J].
    + assert (Q : forall t' r', ~ In (GRet t' r') ((GCalled t c :: h') ++ GBack t w r :: filter (mine t) os)).
      { intros t' r' J. apply in_app_or in J as [J|[J|J]]; [exact (H2 _ _ J)|discriminate|exact (proj2 (N t' c r') J)]. }
      destruct a as [r1|w1 fs1]; cbn [pc_of said].
      * exists ((GCalled t c :: h') ++ GBack t w r :: filter (mine t) os). split; [rewrite <- app_assoc; reflexivity|exact Q].
      * rewrite app_nil_r. exact Q.
  - exact X.
Qed.
Lemma in_own t tr n o : In (n, o) tr -> mine t o = true -> In o (own t tr).
Proof. intros J M. apply filter_In. split; [|exact M]. change o with (snd (n, o)). apply in_map. exact J. Qed.
Lemma own_in t tr o : In o (own t tr) -> mine t o = true /\ exists n, In (n, o) tr.
Proof. intros J. apply filter_In in J as [J M]. split; [exact M|]. apply in_map_iff in J as ((n & o') & <- & J). eauto. Qed.
Lemma own_task es s tr t o : gexec ord gw0 es s tr -> In o (own t tr) -> exists c p, nth_error (g_tasks s) t = Some (mkGT c p).
Proof.
  intros X J. destruct (nth_error (g_tasks s) t) as [[c p]|] eqn:E; [eauto|]. apply nth_error_None in E.
  destruct (story (fun _ _ _ _ => True) ltac:(intros; exact I) ltac:(intros; exact I) _ _ _ X) as [_ Q]. rewrite (Q _ E) in J. destruct J.
Qed.
Lemma called_call es s tr t c n : gexec ord gw0 es s tr -> In (n, GCalled t c) tr -> exists p, nth_error (g_tasks s) t = Some (mkGT c p).
Proof.
  intros X J. apply (in_own t) in J; [|cbn; apply Nat.eqb_refl]. destruct (own_task _ _ _ _ _ X J) as (c' & p & E). exists p.
  destruct (told_all _ _ _ X _ _ _ E) as [(h' & EH & N) _]. rewrite EH in J. destruct J as [J|J]; [injection J as ->; exact E|elim (N _ _ J)].
Qed.
Lemma returned_done es s tr t r n : gexec ord gw0 es s tr -> In (n, GRet t r) tr -> exists c, nth_error (g_tasks s) t = Some (mkGT c (GDone r)).
Proof.
  intros X J. apply (in_own t) in J; [|cbn; apply Nat.eqb_refl]. destruct (own_task _ _ _ _ _ X J) as (c & p & E). exists c.
  destruct (told_all _ _ _ X _ _ _ E) as [_ Q]. destruct p as [w fs|r']; [elim (Q _ _ J)|]. destruct Q as (h' & EH & N). rewrite EH in J. apply in_app_or in J as [J|[J|[]]]; [elim (N _ _ J)|]. injection J as ->. exact E.
Qed.
Lemma done_returned es s tr t c r : gexec ord gw0 es s tr -> nth_error (g_tasks s) t = Some (mkGT c (GDone r)) -> exists n, In (n, GRet t r) tr.
Proof.
  intros X E. destruct (told_all _ _ _ X _ _ _ E) as [_ (h' & EH & _)]. destruct (own_in t tr (GRet t r)) as (_ & n & J); [rewrite EH; apply in_or_app; right; left; reflexivity|eauto].
Qed.
Lemma task_called es s tr t c p : gexec ord gw0 es s tr -> nth_error (g_tasks s) t = Some (mkGT c p) -> exists n, In (n, GCalled t c) tr.
Proof.
  intros X E. destruct (told_all _ _ _ X _ _ _ E) as [(h' & EH & _) _]. destruct (own_in t tr (GCalled t c)) as (_ & n & J); [rewrite EH; left; reflexivity|eauto].
Qed.
End Story.

(** ** a call on a connection *)
Lemma call_case s c s' os : step s (EvCall c) = Some (s', os) -> case s (EvCall c) s' os.
Proof.
  intros ST. cbn [step] in ST. fold (s_new c s) in ST. destruct (start_call (length (c_tasks s)) c (s_new c s)) as [s1 o] eqn:SC. injection ST as <- <-.
  destruct c; cbn [start_call] in SC.
  - eapply (send_case s (CSend cmd sep dep timeout) cmd sep dep None (c_w s)); try reflexivity. destruct s; exact SC.
  - destruct (add_session h (c_w (s_new _ s))) as [f w] eqn:AS. eapply (send_case s (CSendRecv cmd sep dep h timeout) cmd sep dep (Some f) w); try reflexivity; [|exact SC].
    cbn [opens]. cbn in AS. rewrite AS. reflexivity.
  - destruct (add_session h (c_w (s_new _ s))) as [f w] eqn:AS. cbn in AS.
    rewrite (start_wait_case _ _ _ _ _ (mkT (CWait h timeout) (PDone (RExc EUnmodelled)))) in SC by (cbn; rewrite nth_snoc, Nat.eqb_refl; reflexivity).
    injection SC as <- <-. cbn [t_call c_w set_w c_now s_new]. destruct (wait_start f timeout w) as [ph w'] eqn:WS. cbn [fst snd].
    exact (K_call_wait s h timeout f w ph w' AS WS).
Qed.
Lemma call_pc k c k' xs : step k (EvCall c) = Some (k', xs) -> exists p, nth_error (c_tasks k') (length (c_tasks k)) = Some (mkT c p) /\
  match p with PDone r => exists e, r = RExc e /\ sending c = true /\ In (ORet (length (c_tasks k)) r) xs | _ => True end.
Proof.
  intros ST. pose proof (call_case _ _ _ _ ST) as K. inversion K; subst; cbn [c_tasks set_task s_num s_new set_w set_seq reset_ka add_ack]; rewrite nth_upd, Nat.eqb_refl, nth_snoc, Nat.eqb_refl; eexists; (split; [reflexivity|]); try exact I.
  - exists e. split; [reflexivity|]. split; [destruct c; try reflexivity; discriminate|]. right. left. reflexivity.
  - exists EDuplicateAck. split; [reflexivity|]. split; [destruct c; try reflexivity; discriminate|]. right. apply in_or_app. right. left. reflexivity.
Qed.
Lemma sub_own t l c d d' os a : sub t l c d = (d', os, a) ->
  (conn_at l d = None /\ a = ARet (Err EUnmodelled) /\ os = [] /\ d' = d) \/
  exists k k' xs, conn_at l d = Some k /\ step k (EvCall c) = Some (k', xs) /\ os = GSub t l (length (c_tasks k)) c :: map (GAt l) xs /\ d' = set_conn l k' d /\
    (a = AWait (AwCall l (length (c_tasks k))) [] \/ exists e, a = ARet (Err e) /\ sending c = true /\ In (ORet (length (c_tasks k)) (RExc e)) xs).
Proof.
  unfold sub. destruct (conn_at l d) as [k|] eqn:K; [|intros E; injection E as <- <- <-; auto]. intros H. right.
  destruct (step k (EvCall c)) as [[k' xs]|] eqn:S; [|exfalso; cbn [step] in S; destruct (start_call _ _ _); discriminate].
  injection H as <- <- <-. exists k, k', xs. split; [reflexivity|]. split; [exact S|]. repeat (split; [reflexivity|]). destruct (call_pc _ _ _ _ S) as (p & -> & Q).
  destruct p; auto. destruct Q as (e & -> & SC & J). right. exists e. auto.
Qed.
Lemma mine_at t l xs : filter (mine t) (map (GAt l) xs) = [].
Proof. induction xs; [reflexivity|assumption]. Qed.
(** the same, as far as the history of the task is concerned *)
Lemma sub_mine t l c d d' os a : sub t l c d = (d', os, a) ->
  (filter (mine t) os = [] /\ a = ARet (Err EUnmodelled) /\ exists i, l = Some i) \/
  exists u, filter (mine t) os = [GSub t l u c] /\ (a = AWait (AwCall l u) [] \/ exists e, a = ARet (Err e) /\ sending c = true).
Proof.
  intros E. destruct (sub_own _ _ _ _ _ _ _ E) as [(N & -> & -> & _)|(k & k' & xs & K & S & -> & _ & A)].
  - left. split; [reflexivity|]. split; [reflexivity|]. destruct l as [i|]; [eauto|discriminate].
  - right. exists (length (c_tasks k)). cbn. rewrite Nat.eqb_refl, mine_at. split; [reflexivity|]. destruct A as [A|(e & A & B & _)]; eauto.
Qed.
