(** What a node's request returns was sent by that node, after its command was sent there and acknowledged. *)
From Coq Require Import String ZArith List Bool Lia.
From Verif Require Import Py Schema Registry Codec Waiter Conn SpecConn ConnLemmas ConnCut.
From Verif Require Import Gateway SpecGateway GatewayProofs GatewayStory GatewayNode GatewayLinks GatewayPrompt NodeSendM NodeReq SpecNodeReq NodeReqProofs NodeM NodeFresh SystemM SpecSystem SystemFrom SystemProofs.
From Verif Require Import SpecBits SpecWire.
From Verif Require GatewaySend AppM SpecApp AppProofs AppLoad AppRoute.
Import ListNotations.
Open Scope list_scope.
Open Scope string_scope.
Open Scope list_scope.
Open Scope Z_scope.

Lemma holds_unwrap c : holds c (unwrap c).
Proof. unfold holds, unwrap. change (is_sup c) with (is_msg m_Supervision_Get c). destruct (is_msg m_Supervision_Get c); reflexivity. Qed.
Lemma located_more n a x y : located n a x -> located n a (x ++ y).
Proof. intros (k & t & J). exists k, t. apply in_or_app. auto. Qed.
Lemma linked_more n l a x y : linked_to n l a x -> linked_to n l a (x ++ y).
Proof. intros (k & t & J). exists k, t. apply in_or_app. auto. Qed.
Lemma made_linked n l a tr : made_to n l a (on_gw tr) -> linked_to n l a tr /\ located n a tr.
Proof. intros [(k & t & J) (k' & t' & J')]. split; [exists k, t|exists k', t']; apply in_gw; assumption. Qed.
Lemma sent_more n ep m ip a b : sent_by n ep m ip a -> sent_by n ep m ip (a ++ b).
Proof.
  intros [k bs c J F Z H|k l bs c J M F Z H|k l bs J M F E D H].
  - eapply SB_unsolicited; [apply in_or_app; left; exact J|apply located_more; exact F|exact Z|exact H].
  - eapply SB_link; [apply in_or_app; left; exact J|apply linked_more; exact M|apply located_more; exact F|exact Z|exact H].
  - eapply SB_advert; [apply in_or_app; left; exact J|apply linked_more; exact M|apply located_more; exact F|exact E|exact D|exact H].
Qed.
Lemma origin_sent n ep c ip tr : gorigin n ep c ip (on_gw tr) -> sent_by n ep (unwrap c) ip tr.
Proof.
  intros [k k' t bs J F Z|k l bs J M Z|k l bs J M E D H S].
  - eapply SB_unsolicited; [apply in_gw; exact J|exists k', t; apply in_gw; exact F|exact Z|apply holds_unwrap].
  - destruct (made_linked _ _ _ _ M) as [M1 M2]. eapply SB_link; [apply in_gw; exact J|exact M1|exact M2|exact Z|apply holds_unwrap].
  - assert (U : unwrap c = c) by (unfold unwrap; change (is_sup c) with (is_msg m_Supervision_Get c); rewrite S; reflexivity). rewrite U. destruct (made_linked _ _ _ _ M) as [M1 M2]. eapply SB_advert; [apply in_gw; exact J|exact M1|exact M2|exact E|exact D|exact H].
Qed.
Lemma unwrap_obj c cl d : unwrap c = VObj cl d -> exists cl' d', c = VObj cl' d'.
Proof. intros U. destruct c; try discriminate U. eauto. Qed.
Lemma mails_in x os : In x (mails os) -> exists l, In (GTold l (l_node x) (l_ep x) (l_cmd x) (l_flags x)) os.
Proof. unfold mails. intros J. apply in_flat_map in J as (o & JO & J). destruct o; try (destruct J; fail). destruct J as [<-|[]]. cbn. eauto. Qed.

Section System.
Variable ord : list Z -> list Z.
(** the command of request [u] of object [i] was given to task [t] of the gateway, with the object's node and end point *)
Definition handed (s : sys) (i u t : nat) (tr : ytrace) : Prop := exists o cmd stmo k k', nth_error (AppM.a_objs (y_a s)) i = Some o /\
  In (k, YUse i u t cmd stmo) tr /\ In (k', YG (GCalled t (send_call (AppM.o_root o) (AppM.o_ep o) cmd stmo))) tr.
Record yinv (s : sys) (tr : ytrace) : Prop := mkYI {
  v_gw : exists es, gexec ord gw0 es (y_g s) (on_gw tr);
  v_app : exists es, AppM.aexec AppM.app0 es (y_a s) (on_app tr);
  v_node : forall i, exists es, nexec nstate0 es (y_n s i) (on_node i tr) /\ n_now (y_n s i) = y_now s /\ Forall runs_on es;
  v_mail : forall x key cl d, In x (y_mail s) -> ep_key (l_ep x) = Some key -> l_cmd x = VObj cl d -> exists ip, gorigin (l_node x) key (l_cmd x) ip (on_gw tr);
  v_sends : forall t i u, In (t, (i, u)) (y_sends s) -> handed s i u t tr;
  v_recv : forall a k i m r b, tr = a ++ (k, YN i (NRecv m r)) :: b -> exists o, nth_error (AppM.a_objs (y_a s)) i = Some o /\ exists ip, sent_by (AppM.o_root o) (AppM.o_ep o) m ip a;
  v_sent : forall a k i u r b, tr = a ++ (k, YN i (NSent u r)) :: b -> exists t x k', handed s i u t a /\ In (k', YG (GRet t x)) a /\ r = sent_result x }.
Lemma handed_more s s' i u t tr x : (exists l, AppM.a_objs (y_a s') = AppM.a_objs (y_a s) ++ l) -> handed s i u t tr -> handed s' i u t (tr ++ x).
Proof.
  intros (l & L) (o & cmd & stmo & k & k' & N & J & J'). exists o, cmd, stmo, k, k'. split; [|split; apply in_or_app; left; assumption].
  rewrite L, nth_error_app1; [exact N|]. apply nth_error_Some. congruence.
Qed.
Lemma objs_keep (s s' : sys) i o : (exists l, AppM.a_objs (y_a s') = AppM.a_objs (y_a s) ++ l) -> nth_error (AppM.a_objs (y_a s)) i = Some o -> nth_error (AppM.a_objs (y_a s')) i = Some o.
Proof. intros (l & L) N. rewrite L, nth_error_app1; [exact N|]. apply nth_error_Some. congruence. Qed.
Lemma ystamp_in n o os : In o os -> In (n, o) (ystamp n os). Proof. apply in_map. Qed.
Lemma in_ystamp k n o os : In (k, o) (ystamp n os) -> k = n /\ In o os.
Proof. intros J. apply in_map_iff in J as (x & E & J). injection E as <- <-. auto. Qed.
Lemma stamp_of_cut n a x b os : ystamp n os = a ++ x :: b -> In (snd x) os.
Proof. intros E. assert (J : In x (ystamp n os)) by (rewrite E; apply in_or_app; right; left; reflexivity). destruct x as [k o]. apply in_ystamp in J as [_ J]. exact J. Qed.
Lemma yinv_step s e s' os tr : yinv s tr -> ystep ord s e = Some (s', os) -> yinv s' (tr ++ ystamp (y_now s) os).
Proof.
  intros [[ges XG] [aes XA] XN VM VS VR VT] E.
  assert (ADV : (exists dt, e = YAdvance dt) \/ forall dt, e <> YAdvance dt) by (destruct e; [left; eauto|right; discriminate..]).
  destruct ADV as [[dt ->]|NA].
  - cbn [ystep] in E. destruct (gstep ord (y_g s) (GAdvance dt)) as [[g go]|] eqn:G; [|discriminate]. injection E as <- <-. cbn [ystamp map]. rewrite app_nil_r.
    cbn [gstep] in G. destruct (0 <=? dt) eqn:P; [|discriminate]. injection G as <- <-.
    constructor; cbn [y_g y_a y_n y_mail y_sends]; try assumption.
    + exists (ges ++ [GAdvance dt]). rewrite <- (app_nil_r (on_gw tr)). change (@nil (Z * gobs)) with (gstamp (g_now (y_g s)) []). econstructor; [exact XG|]. cbn [gstep]. rewrite P. reflexivity.
    + exists aes. exact XA.
    + intros i. destruct (XN i) as (es & X & T & RO). cbn [nstep n_now]. exists (es ++ [NEvAdvance dt]). split; [|split; [|apply Forall_app; split; [exact RO|constructor; [exact I|constructor]]]].
      * rewrite <- (app_nil_r (on_node i tr)). change (@nil (Z * nobs)) with (nstamp (n_now (y_n s i)) []). econstructor; [exact X|]. cbn [nstep]. rewrite P. reflexivity.
      * rewrite T. unfold y_now, g_now. cbn [y_g g_d d_c]. unfold tick. cbn [step]. rewrite P. reflexivity.
  - destruct (ystep_move _ _ _ _ _ _ _ XA NA E) as [MV (p & gos & aos & nos & EO & AN & PP & PG & PA & PM & PS & P1 & P2 & P3 & P4)].
    assert (NOW : y_now s' = y_now s).
    { destruct PG as [[EQ _]|(ge & NG & G)]; [unfold y_now; rewrite EQ; reflexivity|]. exact (gstep_now _ _ _ _ _ _ (exec_linked _ _ _ _ XG) G NG). }
    assert (OG : on_gw (ystamp (y_now s) os) = gstamp (g_now (y_g s)) gos).
    { rewrite EO, !ystamp_app, !gw_app, gw_of_g, gw_of_a, (nodes_gw _ _ AN). rewrite (proj1 (PP _)), !app_nil_r. reflexivity. }
    assert (OA : on_app (ystamp (y_now s) os) = aos).
    { rewrite EO, !ystamp_app, !app_app, app_of_g, app_of_a, (nodes_app _ _ AN). rewrite (proj2 (PP _)), !app_nil_r. reflexivity. }
    assert (OBJ : exists l, AppM.a_objs (y_a s') = AppM.a_objs (y_a s) ++ l).
    { destruct PA as [[EQ _]|(ae & A)]; [exists []; rewrite EQ, app_nil_r; reflexivity|]. apply AppProofs.astep_case in A. destruct (AppLoad.follows_case _ _ _ _ A) as [[x O] _]. eauto. }
    assert (XG' : exists es, gexec ord gw0 es (y_g s') (on_gw (tr ++ ystamp (y_now s) os))).
    { rewrite gw_app, OG. destruct PG as [[EQ ->]|(ge & NG & G)]; [exists ges; rewrite EQ; cbn; rewrite app_nil_r; exact XG|]. exists (ges ++ [ge]). econstructor; eassumption. }
    assert (SPL : forall a k i o b, tr ++ ystamp (y_now s) os = a ++ (k, YN i o) :: b -> (exists c, tr = a ++ (k, YN i o) :: c) \/
      (In (YN i o) p /\ exists c, a = tr ++ c) \/ (In (YN i o) nos /\ exists c, a = tr ++ ystamp (y_now s) (p ++ map YG gos) ++ c)).
    { intros a k i o b Q. destruct (app_cut _ _ _ _ _ Q) as [(c & Q1 & _)|(c & -> & Q1)]; [left; eauto|]. right. rewrite EO, app_assoc, ystamp_app in Q1. destruct (app_cut _ _ _ _ _ Q1) as [(c' & Q2 & _)|(c' & -> & Q2)].
      - apply stamp_of_cut in Q2. cbn in Q2. apply in_app_or in Q2 as [Q2|Q2]; [left; eauto|]. apply in_map_iff in Q2 as (? & ? & _). discriminate.
      - apply stamp_of_cut in Q2. cbn in Q2. apply in_app_or in Q2 as [Q2|Q2]; [apply in_map_iff in Q2 as (? & ? & _); discriminate|]. right. eauto. }
    assert (NS : forall t i u, In (t, (i, u)) (y_sends s') -> forall c, handed s' i u t (tr ++ ystamp (y_now s) (p ++ map YG gos) ++ c)).
    { intros t i u J c. destruct (PS _ _ _ J) as [J'|(o & cmd & stmo & U1 & U2 & U3)]; [apply (handed_more s); [exact OBJ|apply VS; exact J']|].
      exists o, cmd, stmo, (y_now s), (y_now s). split; [exact (objs_keep _ _ _ _ OBJ U3)|]. split; apply in_or_app; right; apply in_or_app; left; apply ystamp_in; apply in_or_app; [left; exact U1|right; apply in_map; exact U2]. }
    constructor; [exact XG'| | | | | |].
    + rewrite app_app, OA. destruct PA as [[EQ ->]|(ae & A)]; [exists aes; rewrite EQ, app_nil_r; exact XA|]. exists (aes ++ [ae]). econstructor; eassumption.
    + intros i. destruct (XN i) as (es & X & T & RO). destruct (MV i es _ X T) as (es' & X' & T' & RO'). exists (es ++ es'). rewrite node_app, NOW. split; [exact X'|]. split; [exact T'|]. apply Forall_app. auto.
    + intros x key cl d J K C. rewrite gw_app, OG. destruct (PM x J) as [J'|J']; [destruct (VM _ _ _ _ J' K C) as (ip & Q); exists ip; apply gorigin_app; exact Q|]. destruct (mails_in _ _ J') as (l & T).
      destruct PG as [[_ ->]|(ge & NG & G)]; [destruct T|]. exact (told_from _ _ _ _ _ _ _ _ _ _ _ _ _ _ _ XG G T K C).
    + intros t i u J. specialize (NS t i u J (ystamp (y_now s) (map YA aos ++ nos))). rewrite EO, app_assoc, ystamp_app. exact NS.
    + intros a k i m r b Q. destruct (SPL _ _ _ _ _ Q) as [(c & Q1)|[(Q1 & _)|(Q1 & c & ->)]].
      * destruct (VR _ _ _ _ _ _ Q1) as (o & N & S). exists o. split; [exact (objs_keep _ _ _ _ OBJ N)|exact S].
      * destruct (P2 _ _ _ Q1).
      * destruct (P4 _ _ _ Q1) as (x & o & cl & d & J & N & R & K & -> & U). exists o. split; [exact (objs_keep _ _ _ _ OBJ N)|]. destruct (unwrap_obj _ _ _ U) as (cl' & d' & C). rewrite R.
        destruct (VM _ _ _ _ J K C) as (ip & Q'). exists ip. apply sent_more. apply origin_sent. exact Q'.
    + intros a k i u r b Q. destruct (SPL _ _ _ _ _ Q) as [(c & Q1)|[(Q1 & _)|(Q1 & c & ->)]].
      * destruct (VT _ _ _ _ _ _ Q1) as (t & x & k' & H & J & R). exists t, x, k'. split; [|auto]. destruct H as (o & cmd & stmo & k1 & k2 & N & J1 & J2). exists o, cmd, stmo, k1, k2. split; [exact (objs_keep _ _ _ _ OBJ N)|auto].
      * destruct (P1 _ _ _ Q1).
      * destruct (P3 _ _ _ Q1) as (t & x & J & S & R). exists t, x, (y_now s). split; [exact (NS _ _ _ S c)|]. split; [|exact R]. apply in_or_app. right. apply in_or_app. left. apply ystamp_in. apply in_or_app. right. apply in_map. exact J.
Qed.
Lemma yexec_inv es s tr : yexec ord sys0 es s tr -> yinv s tr.
Proof.
  induction 1 as [|es s tr e s' os X IH ST]; [|eapply yinv_step; eassumption].
  constructor; cbn.
  - exists []. constructor.
  - exists []. constructor.
  - intros i. exists []. split; [constructor|]. split; [reflexivity|constructor].
  - intros x key cl d [].
  - intros t i u [].
  - intros [|? ?] k i m r b E; discriminate.
  - intros [|? ?] k i u r b E; discriminate.
Qed.

(** ** one node object: where a request's answer comes from, within what precedes its return *)
Lemma ret_only n e n' os u m : nstep n e = Some (n', os) -> In (NRet u (RMsg m)) os -> os = [NRet u (RMsg m)].
Proof.
  intros E J. assert (F : forall t r s s' o, n_finish t r s = (s', o) -> o = [NRet t r]) by (intros t r s s' o Q; unfold n_finish in Q; injection Q as <- <-; reflexivity).
  destruct e; cbn [nstep] in E.
  - destruct (0 <=? dt); [|discriminate]. injection E as <- <-. destruct J.
  - destruct c; [destruct (add_session h (n_w n))|]; injection E as <- <-; destruct J as [|[]]; discriminate.
  - destruct (nth_error (n_tasks n) t) as [[[h tmo|h tmo] []]|]; try discriminate. destruct r as [[]|].
    + injection E as <- <-. destruct J as [|[]]; discriminate.
    + destruct (n_finish t (RExc ETimeout) n) as [s1 o] eqn:Q. injection E as <- <-. rewrite (F _ _ _ _ _ Q) in J. destruct J as [|[|[]]]; discriminate.
    + destruct (n_finish t (RExc e) n) as [s1 o] eqn:Q. injection E as <- <-. rewrite (F _ _ _ _ _ Q) in J. destruct J as [|[|[]]]; discriminate.
  - destruct m0; try discriminate. destruct (message_received _ (n_w n)) as [w r]. injection E as <- <-. destruct J as [|[]]; discriminate.
  - destruct (nth_error (n_tasks n) t) as [[c [|h f dl []| |]]|]; try discriminate. destruct (dl <=? n_now n); [|discriminate]. injection E as <- <-. destruct J.
  - destruct (nth_error (n_tasks n) t) as [[c [|h f dl ph|h f|]]|]; try discriminate.
    + unfold n_resume in E. destruct (nth_error (w_futs (n_w n)) f) as [[]|], ph; try discriminate; try (match type of E with Some (n_finish ?a ?b ?c) = _ => destruct (n_finish a b c) as [s1 o] eqn:Q; injection E as <- <-; rewrite (F _ _ _ _ _ Q) in *; destruct J as [J|[]]; rewrite J; reflexivity end).
      injection E as <- <-. destruct J.
    + match type of E with Some (n_finish ?a ?b ?c) = _ => destruct (n_finish a b c) as [s1 o] eqn:Q; injection E as <- <-; rewrite (F _ _ _ _ _ Q) in *; destruct J as [J|[]]; rewrite J; reflexivity end.
  - destruct (nth_error (n_tasks n) t) as [[c [|h f dl ph|h f|]]|]; try discriminate.
    + match type of E with Some (n_finish ?a ?b ?c) = _ => destruct (n_finish a b c) as [s1 o] eqn:Q; injection E as <- <-; rewrite (F _ _ _ _ _ Q) in *; destruct J as [J|[]]; rewrite J; reflexivity end.
    + injection E as <- <-. destruct J.
Qed.
Lemma one_cut n o a x b : nstamp n [o] = a ++ x :: b -> a = [].
Proof. destruct a as [|y [|z a]]; [reflexivity|discriminate|discriminate]. Qed.
Lemma answer_before es s tr : nexec nstate0 es s tr -> forall a k u m b n h tmo, tr = a ++ (k, NRet u (RMsg m)) :: b -> In (n, NCall u (NReq h tmo)) tr ->
  hid m = h /\ exists a0 T a1 k1 a2, a = a0 ++ (T, NSent u (Ok true)) :: a1 ++ (k1, NRecv m (Ok true)) :: a2.
Proof.
  induction 1 as [|es s tr e s' os X IH ST]; [intros [|? ?] k u m b n h tmo E; discriminate|]. intros a k u m b n h tmo E C.
  assert (X' : nexec nstate0 (es ++ [e]) s' (tr ++ nstamp (n_now s) os)) by (econstructor; eassumption).
  destruct (call_task _ _ _ X' _ _ _ C) as (y & Y1 & Y2). destruct (app_cut _ _ _ _ _ E) as [(c & E1 & ->)|(c & -> & E1)].
  - apply (IH _ _ _ _ _ n h tmo E1). apply in_app_or in C as [C|C]; [exact C|]. exfalso.
    apply in_stamp in C as [_ C]. destruct (step_tasks _ _ _ _ ST) as (KT & _ & NC & OC & _). destruct (OC _ _ C) as [U _].
    assert (J : In (k, NRet u (RMsg m)) tr) by (rewrite E1; apply in_or_app; right; left; reflexivity). destruct (ret_done _ _ _ X _ _ _ J) as (z & Z1 & _).
    assert (L : nth_error (n_tasks s) u <> None) by congruence. apply nth_error_Some in L. rewrite U in L. lia.
  - assert (J : In (NRet u (RMsg m)) os) by (assert (In (k, NRet u (RMsg m)) (nstamp (n_now s) os)) as H by (rewrite E1; apply in_or_app; right; left; reflexivity); apply in_stamp in H as [_ H]; exact H).
    rewrite (ret_only _ _ _ _ _ _ ST J) in *. rewrite (one_cut _ _ _ _ _ E1), app_nil_r. clear c E1 E.
    destruct (step_tasks _ _ _ _ ST) as (_ & _ & _ & _ & OR & _). destruct (OR u _ J) as (y' & Y3 & Y4). rewrite Y1 in Y3. injection Y3 as <-. destruct y as [cc pc]. cbn in Y2, Y4. subst cc pc.
    pose proof (f_task _ _ (exec_fresh _ _ _ X') u h tmo _ Y1) as F. cbn in F. destruct F as [_ [F1 (k1 & F2)]]. split; [exact F1|]. apply since_split in F2 as (a0 & T & b0 & E & F2).
    apply in_split in F2 as (a1 & a2 & ->). assert (Q : tr ++ nstamp (n_now s) [NRet u (RMsg m)] = (a0 ++ (T, NSent u (Ok true)) :: a1) ++ (k1, NRecv m (Ok true)) :: a2) by (rewrite <- app_assoc; exact E).
    destruct (app_cut _ _ _ _ _ Q) as [(c & Q1 & _)|(c & _ & Q1)]; [|destruct c as [|? [|? ?]]; discriminate]. exists a0, T, a1, k1, c. rewrite Q1, <- app_assoc. reflexivity.
Qed.

(** ** C108 *)
Theorem answer es s tr a k i u m b n h tmo : yexec ord sys0 es s tr -> tr = a ++ (k, YN i (NRet u (RMsg m))) :: b -> In (n, YN i (NCall u (NReq h tmo))) tr ->
  hid m = h /\ exists o a0 k0 a1 k1 a2, nth_error (AppM.a_objs (y_a s)) i = Some o /\
    a = a0 ++ (k0, YN i (NSent u (Ok true))) :: a1 ++ (k1, YN i (NRecv m (Ok true))) :: a2 /\
    (exists ip, sent_by (AppM.o_root o) (AppM.o_ep o) m ip (a0 ++ (k0, YN i (NSent u (Ok true))) :: a1)) /\
    exists t cmd stmo x ku kc kr, In (ku, YUse i u t cmd stmo) a0 /\ In (kc, YG (GCalled t (send_call (AppM.o_root o) (AppM.o_ep o) cmd stmo))) a0 /\
      In (kr, YG (GRet t x)) a0 /\ sent_result x = Ok true.
Proof.
  intros X E C. pose proof (yexec_inv _ _ _ X) as [VG VA VN VM VS VR VT]. destruct (VN i) as (nes & XN & _).
  assert (EN : on_node i tr = on_node i a ++ (k, NRet u (RMsg m)) :: on_node i b) by (rewrite E, node_app; cbn; rewrite Nat.eqb_refl; reflexivity).
  destruct (answer_before _ _ _ XN _ _ _ _ _ n h tmo EN (proj2 (in_node _ _ _ _) C)) as (H & a0 & T & a1 & k1 & a2 & EA). split; [exact H|].
  destruct (node_cut _ _ _ _ _ EA) as (b0 & r1 & -> & _ & E1). cbn [fst snd] in *. destruct (node_cut _ _ _ _ _ E1) as (b1 & b2 & -> & _ & _). cbn [fst snd] in *.
  assert (E2 : tr = (b0 ++ (T, YN i (NSent u (Ok true))) :: b1) ++ (k1, YN i (NRecv m (Ok true))) :: b2 ++ (k, YN i (NRet u (RMsg m))) :: b) by (rewrite E, <- !app_assoc; cbn; rewrite <- app_assoc; reflexivity).
  destruct (VR _ _ _ _ _ _ E2) as (o & N & S). rewrite <- app_assoc in E2. cbn [List.app] in E2. destruct (VT _ _ _ _ _ _ E2) as (t & x & kr & (o' & cmd & stmo & ku & kc & N' & J1 & J2) & J3 & R).
  rewrite N in N'. injection N' as <-. exists o, b0, T, b1, k1, b2. split; [exact N|]. split; [reflexivity|]. split; [exact S|]. exists t, cmd, stmo, x, ku, kc, kr. auto.
Qed.

(** ** the command of a request *)
Lemma use_step s e s' os i u t cmd stmo : ystep ord s e = Some (s', os) -> In (YUse i u t cmd stmo) os ->
  u = length (n_tasks (y_n s i)) /\ (exists h tmo, In (YN i (NCall u (NReq h tmo))) os) /\ forall u' t' cmd' stmo', In (YUse i u' t' cmd' stmo') os -> t' = t /\ cmd' = cmd /\ stmo' = stmo.
Proof.
  intros E J. assert (AN : forall l, at_nodes l -> ~ In (YUse i u t cmd stmo) l) by (intros l A J'; unfold at_nodes in A; rewrite Forall_forall in A; exact (A _ J')).
  assert (GG : forall e s0 s1 o1, gw_go ord e s0 = Some (s1, o1) -> forall a b c d f, ~ In (YUse a b c d f) o1).
  { intros e0 s0 s1 o1 G a b c d f J'. destruct (gw_go_spec _ 0 _ _ _ _ G) as (gos & nos & _ & -> & A & _). apply in_app_or in J' as [J'|J']; [apply in_map_iff in J' as (? & ? & _); discriminate|]. unfold at_nodes in A. rewrite Forall_forall in A. exact (A _ J'). }
  assert (NN : forall j e0 s0 s1 o1, plain e0 -> node_go j e0 s0 = (s1, o1) -> forall a b c d f, ~ In (YUse a b c d f) o1).
  { intros j e0 s0 s1 o1 P G a b c d f J'. destruct (plain_go _ _ _ _ _ P G) as (A & _). unfold at_nodes in A. rewrite Forall_forall in A. exact (A _ J'). }
  destruct e as [dt|e|e|k|j c cmd' stmo'|j e]; cbn [ystep] in E.
  - destruct (gstep ord (y_g s) (GAdvance dt)) as [[g go]|]; [|discriminate]. injection E as <- <-. destruct J.
  - assert (Q : gw_go ord e s = Some (s', os)) by (destruct e; try discriminate E; exact E). destruct (GG _ _ _ _ Q _ _ _ _ _ J).
  - assert (Q : exists aos, os = map YA aos).
    { destruct e as [c|x r|z]; [destruct c; try discriminate E| |]; match type of E with match ?x with _ => _ end = _ => destruct x as [[a aos]|]; [|discriminate E] end; injection E as <- <-; exists aos; reflexivity. }
    destruct Q as (aos & ->). apply in_map_iff in J as (? & ? & _). discriminate.
  - destruct (nth_error (y_mail s) k) as [x|]; [|discriminate]. destruct (AppM.astep _ _) as [[a aos]|]; [|discriminate]. destruct (handle_all aos _) as [s1 nos] eqn:H. injection E as <- <-.
    destruct (handle_spec 0 _ _ _ _ H) as (_ & _ & _ & _ & _ & A & _). apply in_app_or in J as [J|J]; [apply in_map_iff in J as (? & ? & _); discriminate|]. destruct (AN _ A J).
  - destruct (nth_error (AppM.a_objs (y_a s)) j) as [o|]; [|discriminate]. destruct (node_go j (NEvCall c) s) as [s1 o1] eqn:N1. pose proof (NN j (NEvCall c) s s1 o1 I N1) as NO. destruct c as [h tmo|h tmo].
    + match type of E with match ?x with _ => _ end = _ => destruct x as [[s2 o2]|] eqn:G; [|discriminate E] end. injection E as <- <-.
      apply in_app_or in J as [J|[J|J]]; [destruct (NO _ _ _ _ _ J)| |destruct (GG _ _ _ _ G _ _ _ _ _ J)]. injection J as <- <- <- <- <-. split; [reflexivity|]. split.
      * exists h, tmo. apply in_or_app. left. unfold node_go in N1. cbn [nstep] in N1. destruct (add_session h (n_w (y_n s j))) as [f w]. injection N1 as _ <-. left. reflexivity.
      * intros u' t' cmd'' stmo'' J'. apply in_app_or in J' as [J'|[J'|J']]; [destruct (NO _ _ _ _ _ J')| |destruct (GG _ _ _ _ G _ _ _ _ _ J')]. injection J' as _ <- <- <-. auto.
    + injection E as <- <-. destruct (NO _ _ _ _ _ J).
  - assert (P : plain e /\ node_go j e s = (s', os)) by (destruct e; try discriminate; (split; [exact I|]); match type of E with match ?x with _ => _ end = _ => destruct x; [|discriminate] end; congruence).
    destruct P as [P N1]. destruct (NN _ _ _ _ _ P N1 _ _ _ _ _ J).
Qed.
Lemma use_once es s tr : yexec ord sys0 es s tr -> (forall k i u t cmd stmo, In (k, YUse i u t cmd stmo) tr -> exists h tmo, In (k, YN i (NCall u (NReq h tmo))) tr) /\
  forall k i u t cmd stmo k' t' cmd' stmo', In (k, YUse i u t cmd stmo) tr -> In (k', YUse i u t' cmd' stmo') tr -> t' = t /\ cmd' = cmd /\ stmo' = stmo.
Proof.
  induction 1 as [|es s tr e s' os X [IH1 IH2] ST]; [split; [intros ? ? ? ? ? ? []|intros ? ? ? ? ? ? ? ? ? ? []]|].
  assert (OLD : forall k i u t cmd stmo, In (k, YUse i u t cmd stmo) tr -> (u < length (n_tasks (y_n s i)))%nat).
  { intros k i u t cmd stmo J. destruct (IH1 _ _ _ _ _ _ J) as (h & tmo & C). destruct (v_node _ _ (yexec_inv _ _ _ X) i) as (nes & XN & _). apply in_node in C. destruct (call_task _ _ _ XN _ _ _ C) as (y & Y & _). apply nth_error_Some. congruence. }
  split.
  - intros k i u t cmd stmo J. apply in_app_or in J as [J|J].
    + destruct (IH1 _ _ _ _ _ _ J) as (h & tmo & C). exists h, tmo. apply in_or_app. auto.
    + apply in_ystamp in J as [-> J]. destruct (use_step _ _ _ _ _ _ _ _ _ ST J) as (_ & (h & tmo & C) & _). exists h, tmo. apply in_or_app. right. apply ystamp_in. exact C.
  - intros k i u t cmd stmo k' t' cmd' stmo' J J'. apply in_app_or in J as [J|J]; apply in_app_or in J' as [J'|J'].
    + exact (IH2 _ _ _ _ _ _ _ _ _ _ J J').
    + apply in_ystamp in J' as [_ J']. destruct (use_step _ _ _ _ _ _ _ _ _ ST J') as (U & _). pose proof (OLD _ _ _ _ _ _ J). lia.
    + apply in_ystamp in J as [_ J]. destruct (use_step _ _ _ _ _ _ _ _ _ ST J) as (U & _). pose proof (OLD _ _ _ _ _ _ J'). lia.
    + apply in_ystamp in J as [_ J]. apply in_ystamp in J' as [_ J']. destruct (use_step _ _ _ _ _ _ _ _ _ ST J) as (_ & _ & U). exact (U _ _ _ _ J').
Qed.
Theorem command es s tr k i u t cmd stmo k' : yexec ord sys0 es s tr -> In (k, YUse i u t cmd stmo) tr -> In (k', YN i (NSent u (Ok true))) tr ->
  exists o, nth_error (AppM.a_objs (y_a s)) i = Some o /\ forall b, 0 <= AppM.o_ep o < 128 -> encodes cmd b ->
    exists l ip w cbs a n0 q x n1 rest, linked_to (AppM.o_root o) l ip tr /\ located (AppM.o_root o) ip tr /\ compose cmd = Ok cbs /\ bits_of cbs = b /\
      on_link (Some l) (on_gw tr) = a ++ (n0, OWire (Some w) (packet q 0 (AppM.o_ep o) cbs)) :: x ++ (n1, ORet w (RBool true)) :: rest /\
      exists m bs, In (m, ORecv bs) x /\ acknowledges bs q.
Proof.
  intros X JU JS. pose proof (yexec_inv _ _ _ X) as [[ges XG] VA VN VM VS VR VT]. apply in_split in JS as (a & b & E). destruct (VT _ _ _ _ _ _ E) as (t' & r & kr & (o & cmd' & stmo' & k1 & k2 & N & J1 & J2) & J3 & R).
  assert (UP : forall x, In x a -> In x tr) by (intros x J; rewrite E; apply in_or_app; auto). destruct (proj2 (use_once _ _ _ X) _ _ _ _ _ _ _ _ _ _ JU (UP _ J1)) as (-> & -> & ->).
  exists o. split; [exact N|]. intros bb EP EN. apply UP, in_gw in J2. apply UP, in_gw in J3. unfold sent_result in R.
  assert (RB : send_result r = Ok (VBool true)).
  { destruct (GatewaySend.send_returns ord _ _ _ _ _ _ _ _ _ _ _ XG J2 J3) as [([|] & Q)|(ee & Q)]; rewrite Q in R |- *; [reflexivity|discriminate|discriminate]. }
  destruct (GatewaySend.send_bool ord _ _ _ _ _ _ _ _ _ _ _ _ _ XG J2 J3 RB EP EN) as (l & w & cbs & a' & n0 & x & n1 & rest & M & C & B & OL & AK & _).
  destruct (made_made_to _ _ _ _ _ _ XG M) as (ip & M'). destruct (made_linked _ _ _ _ M') as [M1 M2].
  exists l, ip, w, cbs, (a' ++ [(n0, OCall w (CSend cmd 0 (AppM.o_ep o) stmo))]), n0, ((sends a' + 1) mod 256), x, n1, rest. split; [exact M1|]. split; [exact M2|]. split; [exact C|]. split; [exact B|]. split; [rewrite OL, <- app_assoc; reflexivity|exact AK].
Qed.
End System.
